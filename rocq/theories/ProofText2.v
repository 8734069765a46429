(** The parser line by line. *)
From Coq Require Import String Ascii.
From Verif Require Import Prelude ModelMux ProofList ProofZlist ModelCdf ModelCmd ModelText SpecText ProofText.

Ltac sames := repeat match goal with |- context[same (str ?a) (str ?b)] => let v := eval vm_compute in (same (str a) (str b)) in change (same (str a) (str b)) with v end; cbn [orb].
Ltac a_word := let Q := fresh in intros Q; vm_compute in Q; repeat (destruct Q as [Q|Q]; [discriminate Q|]); exact Q.

Lemma u8_small x : 0 <= x < 256 -> u8 x = x.
Proof. intros H. unfold u8. change 255 with (Z.ones 8). rewrite Z.land_ones by lia. apply Z.mod_small. exact H. Qed.
Lemma u32_ok n s : numeral n s -> n < 2 ^ 32 -> parse_u32 s = Some n.
Proof. intros H L. apply unsigned_ok; [exact H|]. change (2 ^ 32) with 4294967296 in L. lia. Qed.
Lemma numeral_head n s : numeral n s -> exists c t, s = c :: t /\ c <= 57.
Proof. intros H. destruct s as [|c t]; [destruct H as (N & _); contradiction N; reflexivity|]. exists c, t. split; [reflexivity|]. pose proof (numeral_cons _ _ _ H) as D. unfold digit in D. lia. Qed.

(** ** Prediction modes *)
Definition all_keys : list (list Z) := [str "lcontextmap"; str "dcontextmap"; str "mixingvalues"] ++ speed_keys.
Definition letter (k : list Z) : Prop := exists c t, k = c :: t /\ 58 <= c.
Lemma keys_letters k : In k all_keys -> letter k /\ word k.
Proof.
  intros H. unfold all_keys, speed_keys in H. cbn [app In] in H. repeat (destruct H as [<-|H]; [split; [unfold letter; vm_compute; eexists _, _; split; [reflexivity|discriminate]|a_word]|]). contradiction.
Qed.
Lemma numeral_not_letter n t k : numeral n t -> letter k -> t <> k.
Proof. intros H (c & t' & -> & L) ->. destruct (numeral_head _ _ H) as (c2 & t2 & E & L2). injection E as -> ->. lia. Qed.
Lemma good_section_keys s : good_section s -> In (fst s) all_keys /\ Forall (fun t => exists n, numeral n t) (snd s).
Proof.
  destruct s as (k, toks). cbn [good_section fst snd]. intros H.
  assert (W : forall top, Forall (fun t => exists n, numeral n t /\ n <= top) toks -> Forall (fun t => exists n, numeral n t) toks) by (intros top F; eapply Forall_impl; [|exact F]; intros t (n & A & _); exists n; exact A).
  unfold all_keys. destruct H as [(-> & F)|[(-> & F)|[(-> & F & _)|(I & F & _)]]]; (split; [|eapply W; exact F]); [left; reflexivity|right; left; reflexivity|right; right; left; reflexivity|apply in_or_app; right; exact I].
Qed.
Definition tokens (secs : list (list Z * list (list Z))) := concat (map (fun s => fst s :: snd s) secs).
Lemma after_numerals k toks rest : letter k -> Forall (fun t => exists n, numeral n t) toks -> after k (toks ++ rest) = after k rest.
Proof.
  intros L. induction toks as [|t toks IH]; intros F; [reflexivity|]. apply Forall_cons_iff in F. destruct F as ((n & F1) & F2). cbn [app after]. rewrite same_no by (eapply numeral_not_letter; eassumption). apply IH, F2.
Qed.
Definition starts_with_key (l : list (list Z)) : Prop := l = [] \/ exists k t, l = k :: t /\ In k all_keys.
Lemma tokens_start secs : Forall good_section secs -> starts_with_key (tokens secs).
Proof.
  intros F. destruct secs as [|s secs]; [left; reflexivity|]. right. unfold tokens. cbn [map concat app]. apply Forall_inv in F. destruct (good_section_keys _ F) as (K & _). eexists _, _. split; [reflexivity|exact K].
Qed.
(** what follows the key *)
Lemma after_tokens key : letter key -> forall secs, Forall good_section secs ->
  (exists toks rest, after key (tokens secs) = toks ++ rest /\ starts_with_key rest /\ numbers_of key secs = map value toks /\ In (key, toks) secs) \/
  (after key (tokens secs) = [] /\ numbers_of key secs = []).
Proof.
  intros L. induction secs as [|(k, toks) secs IH]; intros F; [right; auto|]. apply Forall_cons_iff in F. destruct F as (F1 & F2). destruct (good_section_keys _ F1) as (K & N). cbn [fst snd] in K, N.
  unfold tokens. cbn [map concat fst snd app after]. fold (tokens secs). unfold numbers_of. cbn [find fst]. destruct (same k key) eqn:E.
  - apply same_ok in E. subst k. left. exists toks, (tokens secs). split; [reflexivity|]. split; [apply tokens_start, F2|]. split; [reflexivity|left; reflexivity].
  - fold (numbers_of key secs). rewrite after_numerals by assumption. destruct (IH F2) as [(t & r & A & B & C & I)|G]; [left; exists t, r; split; [exact A|split; [exact B|split; [exact C|right; exact I]]]|right; exact G].
Qed.
Lemma key_no_number k : In k all_keys -> parse_i64 k = None /\ parse_u16 k = None.
Proof. intros H. destruct (keys_letters _ H) as ((c & t & -> & L) & _). apply letter_no_number, L. Qed.
Lemma numbers_rest most top rest : starts_with_key rest -> numbers most top rest = Some [].
Proof. intros [->|(k & t & -> & K)]; [reflexivity|]. cbn [numbers]. rewrite (proj1 (key_no_number _ K)). reflexivity. Qed.
Lemma numbers_ok top rest : top < 2 ^ 63 -> starts_with_key rest -> forall toks most, Forall (fun t => exists n, numeral n t /\ n <= top) toks ->
  match most with Some m => (length toks <= m)%nat | None => True end -> numbers most top (toks ++ rest) = Some (map value toks).
Proof.
  intros T R. induction toks as [|t toks IH]; intros most F M; [apply numbers_rest, R|]. apply Forall_cons_iff in F. destruct F as ((n & F1 & F0) & F2). cbn [app numbers].
  assert (PI : parse_i64 t = Some n) by (apply signed_ok; [exact F1|change (2 ^ 63) with 9223372036854775808 in T; lia]). rewrite PI.
  assert (E : (n <=? top) && (0 <=? n) = true) by (apply andb_true_intro; pose proof (numeral_nonneg _ _ F1); split; apply Z.leb_le; lia). rewrite E.
  assert (V : value t = n) by apply F1. destruct most as [[|m]|]; cbn [length] in M; [lia| |]; rewrite IH by (auto; cbn [option_map Nat.pred]; lia); cbn [option_map map]; rewrite V; reflexivity.
Qed.
Lemma numbers_after key top most secs : In key all_keys -> top < 2 ^ 63 -> Forall good_section secs ->
  (forall toks, In (key, toks) secs -> Forall (fun t => exists n, numeral n t /\ n <= top) toks /\ match most with Some m => (length toks <= m)%nat | None => True end) ->
  numbers most top (after key (tokens secs)) = Some (numbers_of key secs).
Proof.
  intros K T G H. destruct (after_tokens key (proj1 (keys_letters _ K)) secs G) as [(toks & rest & -> & R & -> & I)|(-> & ->)]; [|reflexivity]. destruct (H _ I) as (A & B). apply numbers_ok; assumption.
Qed.
Lemma speed_after key secs : In key speed_keys -> Forall good_section secs ->
  speed_pair (after key (tokens secs)) = Some (nth 0 (numbers_of key secs) 0, nth 1 (numbers_of key secs) 0).
Proof.
  intros K G. assert (KA : In key all_keys) by (apply in_or_app; right; exact K). destruct (after_tokens key (proj1 (keys_letters _ KA)) secs G) as [(toks & rest & -> & R & -> & I)|(-> & ->)]; [|reflexivity].
  rewrite Forall_forall in G. specialize (G _ I). assert (B : Forall (fun t => exists n, numeral n t /\ n <= 16384) toks /\ zlen toks <= 2).
  { cbn [good_section] in G. destruct G as [(E & _)|[(E & _)|[(E & _)|(_ & F & Z)]]]; [| | |auto]; exfalso; rewrite E in K; vm_compute in K; repeat (destruct K as [K|K]; [discriminate K|]); exact K. }
  destruct B as (F & Z). clear G I.
  assert (P0 : speed_pair rest = Some (0, 0)). { destruct R as [->|(k & t & -> & KK)]; [reflexivity|]. cbn [speed_pair]. rewrite (proj2 (key_no_number _ KK)). reflexivity. }
  assert (N : forall t, (exists n, numeral n t /\ n <= 16384) -> parse_u16 t = Some (value t) /\ (16384 <? value t) = false). { intros t (n & A & L). split; [|apply Z.ltb_ge; rewrite (proj2 (proj2 A)); exact L]. rewrite (proj2 (proj2 A)). apply unsigned_ok; [exact A|lia]. }
  destruct toks as [|a toks]; [exact P0|]. apply Forall_cons_iff in F. destruct F as (F1 & F). cbn [app speed_pair]. destruct (N _ F1) as (-> & ->). destruct toks as [|b toks].
  - cbn [app map nth]. destruct R as [->|(k & t & -> & KK)]; [reflexivity|]. rewrite (proj2 (key_no_number _ KK)). reflexivity.
  - apply Forall_cons_iff in F. destruct F as (F2 & F). cbn [app]. destruct (N _ F2) as (-> & ->). reflexivity.
Qed.
Lemma prediction_ok mode name secs : In (name, mode) [(str "lsb6", 0); (str "msb6", 1); (str "utf8", 2); (str "sign", 3)] -> Forall good_section secs ->
  parse_prediction (str "prediction" :: name :: tokens secs) = PCmd (PredictionMode (mode_of secs mode)).
Proof.
  intros HI G. unfold parse_prediction.
  assert (AK : forall key, In key all_keys -> after key (str "prediction" :: name :: tokens secs) = after key (tokens secs)).
  { intros key K. cbn [after]. assert (N : str "prediction" <> key /\ name <> key).
    { split; intros <-; vm_compute in K; cbn [In] in HI; [|repeat (destruct HI as [HI|HI]; [injection HI as <- <-; vm_compute in K; repeat (destruct K as [K|K]; [discriminate K|]); exact K|]); exact HI]. repeat (destruct K as [K|K]; [discriminate K|]); exact K. }
    rewrite (same_no _ _ (proj1 N)), (same_no _ _ (proj2 N)). reflexivity. }
  assert (MODE : (if same name (str "utf8") then Some 2 else if same name (str "sign") then Some 3 else if same name (str "lsb6") then Some 0 else if same name (str "msb6") then Some 1 else None) = Some mode).
  { cbn [In] in HI. repeat (destruct HI as [HI|HI]; [injection HI as <- <-; vm_compute; reflexivity|]). contradiction. }
  rewrite MODE. cbn [of_opt]. clear MODE HI.
  rewrite !AK by (unfold all_keys, speed_keys; cbn [app In]; tauto). rewrite Forall_forall in G. pose proof G as G2. rewrite <- Forall_forall in G2.
  Ltac wrong E := exfalso; vm_compute in E; discriminate E.
  assert (Q : forall key, key = str "lcontextmap" \/ key = str "dcontextmap" -> forall toks, In (key, toks) secs -> Forall (fun t => exists n, numeral n t /\ n <= 255) toks).
  { intros key K toks I. specialize (G _ I). cbn [good_section] in G. destruct G as [(E & F)|[(E & F)|[(E & _)|(E & _)]]]; [exact F|exact F| |]; exfalso; destruct K as [->| ->]; vm_compute in E; try discriminate E; repeat (destruct E as [E|E]; [discriminate E|]); exact E. }
  assert (N1 : numbers None 255 (after (str "lcontextmap") (tokens secs)) = Some (numbers_of (str "lcontextmap") secs)) by (apply numbers_after; [left; reflexivity|lia|exact G2|intros toks I; split; [apply (Q _ (or_introl eq_refl) _ I)|exact Logic.I]]).
  assert (N2 : numbers None 255 (after (str "dcontextmap") (tokens secs)) = Some (numbers_of (str "dcontextmap") secs)) by (apply numbers_after; [right; left; reflexivity|lia|exact G2|intros toks I; split; [apply (Q _ (or_intror eq_refl) _ I)|exact Logic.I]]).
  rewrite N1, N2.
  rewrite (numbers_after (str "mixingvalues") 8 (Some (Z.to_nat 8192)) secs).
  2: right; right; left; reflexivity. 2: lia. 2: exact G2.
  2:{ intros toks I. specialize (G _ I). cbn [good_section] in G. destruct G as [(E & F)|[(E & F)|[(E & F & Z)|(E & _)]]]; [wrong E|wrong E| |exfalso; vm_compute in E; repeat (destruct E as [E|E]; [discriminate E|]); exact E]. split; [exact F|unfold zlen in Z; lia]. }
  cbn [of_opt]. rewrite !speed_after by (try assumption; unfold speed_keys; cbn [In]; tauto). cbn [of_opt]. reflexivity.
Qed.

(** ** Lines *)
Lemma split_head cmd rest : Forall word (cmd :: rest) -> split 32 (line (cmd :: rest)) = cmd :: rest.
Proof. intros F. apply split_line; [exact F|discriminate]. Qed.
Lemma func_ok mid st more k : ~ In (str "func") mid -> func (mid ++ [str "func"; st] ++ more) k = num (parse_u32 st) k.
Proof.
  induction mid as [|a mid IH]; intros N; [cbn [app func]; rewrite same_refl; reflexivity|]. assert (E : func ((a :: mid) ++ [str "func"; st] ++ more) k = if same a (str "func") then match mid ++ [str "func"; st] ++ more with b :: _ => num (parse_u32 b) k | [] => PErr end else func (mid ++ [str "func"; st] ++ more) k).
  { destruct mid; reflexivity. }
  rewrite E, same_no by (intros ->; apply N; left; reflexivity). apply IH. intros Q. apply N. right. exact Q.
Qed.
Lemma insert_split (e : bool) sn text : word sn -> split 32 ((if e then str "rndins" else str "insert") ++ [32] ++ sn ++ [32] ++ text) = (if e then str "rndins" else str "insert") :: sn :: split 32 text.
Proof.
  intros W. cbn [app]. assert (C : word (if e then str "rndins" else str "insert")) by (destruct e; a_word). rewrite split_app by exact C. rewrite split_app by exact W. reflexivity.
Qed.
Lemma insert_text (c sn text : list Z) : zskip (zlen c + zlen sn + 2) (c ++ [32] ++ sn ++ [32] ++ text) = text.
Proof.
  replace (c ++ [32] ++ sn ++ [32] ++ text) with ((c ++ [32] ++ sn ++ [32]) ++ text) by (rewrite <- !app_assoc; reflexivity).
  replace (zlen c + zlen sn + 2) with (zlen (c ++ [32] ++ sn ++ [32])) by (rewrite !zlen_app; change (zlen [32]) with 1; lia). apply zskip_app_exact; reflexivity.
Qed.
Lemma describes_ok c s : describes c s -> command_parse s = PCmd c.
Proof.
  intros H. destruct H as [n d sn sd more H1 H2 L1 L2 M|len id t fin slen sid st sfin mid more H1 H2 H3 H4 L1 L2 L3 L4 W1 NF W2|data e sn text N H1 L T|t st H1 L|t st H1 L|t st k sk H1 L H2 L2|mode name secs HI G].
  - unfold command_parse. cbn [app]. rewrite split_head by (repeat apply Forall_cons; try assumption; try a_word; eapply numeral_word; eassumption). sames. cbn [parse_copy_line]. rewrite (u32_ok _ _ H1) by lia. cbn [num]. sames. rewrite (u32_ok _ _ H2) by lia. cbn [num]. destruct (Z.eqb_spec n 0); [lia|reflexivity].
  - unfold command_parse. pose proof (numeral_nonneg _ _ H1). pose proof (numeral_nonneg _ _ H3). pose proof (numeral_nonneg _ _ H4).
    assert (WI : word (slen ++ [44] ++ sid)). { intros Q. apply in_app_or in Q. destruct Q as [Q|[Q|Q]]; [apply (numeral_word _ _ H1 Q)|discriminate Q|apply (numeral_word _ _ H2 Q)]. }
    assert (W : Forall word (mid ++ [str "func"; st] ++ more)). { apply Forall_app. split; [exact W1|]. cbn [app]. repeat apply Forall_cons; [a_word|eapply numeral_word; eassumption|exact W2]. }
    change ([str "dict"; sfin; str "word"; slen ++ [44] ++ sid] ++ mid ++ [str "func"; st] ++ more) with (str "dict" :: (sfin :: str "word" :: (slen ++ [44] ++ sid) :: (mid ++ [str "func"; st] ++ more))).
    rewrite split_head by (repeat apply Forall_cons; try assumption; try a_word; eapply numeral_word; eassumption). sames.
    assert (E : exists a b r, mid ++ [str "func"; st] ++ more = a :: b :: r) by (destruct mid as [|a [|b mid]]; cbn [app]; eexists _, _, _; reflexivity). destruct E as (a & b & r & E). unfold parse_dict. rewrite E. rewrite (u32_ok _ _ H4) by lia. cbn [num]. sames.
    assert (SI : split 44 (slen ++ [44] ++ sid) = [slen; sid]). { cbn [app]. rewrite split_app by (apply digits_no; [apply H1|lia]). rewrite split_word by (apply digits_no; [apply H2|lia]). reflexivity. }
    rewrite SI, (u32_ok _ _ H1) by lia. cbn [num]. rewrite (u32_ok _ _ H2) by lia. cbn [num]. rewrite <- E, func_ok by exact NF. rewrite (u32_ok _ _ H3) by lia. cbn [num]. rewrite !u8_small by lia. reflexivity.
  - destruct (literal_text_ok data text T N) as (LT & d0 & more & SP & GV). unfold command_parse. rewrite insert_split by (eapply numeral_word; eassumption). 
    assert (Hd : match (if e then str "rndins" else str "insert") with cmd => (if same cmd (str "window") then false else if same cmd (str "prediction") then false else if same cmd (str "ctype") || same cmd (str "ltype") || same cmd (str "dtype") then false else if same cmd (str "copy") then false else if same cmd (str "dict") then false else same cmd (str "insert") || same cmd (str "rndins")) = true end) by (destruct e; vm_compute; reflexivity).
    assert (SE : same (if e then str "rndins" else str "insert") (str "rndins") = e) by (destruct e; vm_compute; reflexivity).
    set (cmd := if e then str "rndins" else str "insert") in *. destruct (same cmd (str "window")); [discriminate|]. destruct (same cmd (str "prediction")); [discriminate|]. destruct (_ || _ || _); [discriminate|]. destruct (same cmd (str "copy")); [discriminate|]. destruct (same cmd (str "dict")); [discriminate|]. rewrite Hd.
    rewrite SP. cbn [parse_insert]. assert (PU : parse_usize sn = Some (zlen data)) by (apply unsigned_ok; [exact H1|change (2 ^ 64) with 18446744073709551616 in L; lia]). rewrite PU. cbn [num]. destruct (Z.eqb_spec (zlen data) 0) as [Z0|_]; [exfalso; destruct data; [contradiction N; reflexivity|rewrite zlen_cons in Z0; pose proof (zlen_nonneg data); lia]|].
    rewrite insert_text, LT. cbn [of_opt]. rewrite GV, Z.eqb_refl, SE. reflexivity.
  - unfold command_parse. rewrite split_head by (repeat apply Forall_cons; try apply Forall_nil; try a_word; eapply numeral_word; eassumption). sames. cbn [parse_type]. rewrite (u32_ok _ _ H1) by lia. cbn [num]. sames. rewrite u8_small by (pose proof (numeral_nonneg _ _ H1); lia). reflexivity.
  - unfold command_parse. rewrite split_head by (repeat apply Forall_cons; try apply Forall_nil; try a_word; eapply numeral_word; eassumption). sames. cbn [parse_type]. rewrite (u32_ok _ _ H1) by lia. cbn [num]. sames. rewrite u8_small by (pose proof (numeral_nonneg _ _ H1); lia). reflexivity.
  - unfold command_parse. rewrite split_head by (repeat apply Forall_cons; try apply Forall_nil; try a_word; eapply numeral_word; eassumption). sames. cbn [parse_type]. sames. rewrite (u32_ok _ _ H1) by lia. cbn [num]. rewrite (u32_ok _ _ H2) by lia. cbn [num]. destruct (Z.ltb_spec 8 k); [lia|]. rewrite u8_small by (pose proof (numeral_nonneg _ _ H1); lia). reflexivity.
  - unfold command_parse. fold (tokens secs). rewrite split_head.
    2:{ apply Forall_cons; [a_word|]. apply Forall_cons; [cbn [In] in HI; repeat (destruct HI as [HI|HI]; [injection HI as <- _; a_word|]); contradiction|]. clear HI. unfold tokens. apply Forall_concat, Forall_map. eapply Forall_impl; [|exact G]. intros s GS. destruct (good_section_keys _ GS) as (K & Nu). apply Forall_cons; [apply (keys_letters _ K)|]. eapply Forall_impl; [|exact Nu]. intros t (n & A). eapply numeral_word, A. }
    sames. apply prediction_ok; assumption.
Qed.
Lemma nothing_ok s : says_nothing s -> command_parse s = PNone.
Proof.
  intros H. destruct H as [more M|e|e sn text H|sn d sd more H1 H2 L M].
  - unfold command_parse. rewrite split_head by (apply Forall_cons; [a_word|exact M]). sames. reflexivity.
  - destruct e; vm_compute; reflexivity.
  - unfold command_parse. rewrite insert_split by (eapply numeral_word; eassumption). destruct (split 32 text) as [|d0 more] eqn:SP; [contradiction (split_not_nil _ _ SP)|]. assert (PU : parse_usize sn = Some 0) by (apply unsigned_ok; [exact H|lia]). destruct e; sames; cbn [parse_insert]; rewrite PU; reflexivity.
  - unfold command_parse. cbn [app]. rewrite split_head by (repeat apply Forall_cons; try assumption; try a_word; eapply numeral_word; eassumption). sames. cbn [parse_copy_line]. rewrite (u32_ok _ _ H1) by lia. cbn [num]. sames. rewrite (u32_ok _ _ H2) by lia. reflexivity.
Qed.

(** ** White space *)
Lemma trim_start_spaces b s : forallb space b = true -> trim_start (b ++ s) = trim_start s.
Proof. induction b as [|c b IH]; intros H; [reflexivity|]. cbn [forallb] in H. apply andb_prop in H. destruct H as (H1 & H2). cbn [app trim_start]. rewrite H1. apply IH, H2. Qed.
Lemma trim_start_solid c s : space c = false -> trim_start (c :: s) = c :: s.
Proof. intros H. cbn [trim_start]. rewrite H. reflexivity. Qed.
Lemma forallb_rev (f : Z -> bool) l : forallb f l = true -> forallb f (rev l) = true.
Proof. intros H. rewrite forallb_forall in *. intros x Hx. apply H. apply in_rev, Hx. Qed.
Lemma trim_padded s l : padded s l -> trim l = s.
Proof.
  intros (b & a & c1 & c2 & m & -> & B & A & S & C1 & C2). unfold trim. rewrite trim_start_spaces by exact B.
  assert (E : exists x y, s = c1 :: x /\ rev s = c2 :: y). { destruct S as [(-> & -> & ->)| ->]; [exists [], []; auto|]. exists (m ++ [c2]), (rev m ++ [c1]). split; [reflexivity|]. change (c1 :: m ++ [c2]) with ([c1] ++ m ++ [c2]). rewrite !rev_app_distr. reflexivity. }
  destruct E as (x & y & E1 & E2). rewrite E1 at 1. cbn [app]. rewrite trim_start_solid by exact C1. change (c1 :: x ++ a) with ((c1 :: x) ++ a). rewrite <- E1, rev_app_distr, trim_start_spaces by (apply forallb_rev, A). rewrite E2, trim_start_solid by exact C2. rewrite <- E2. apply rev_involutive.
Qed.

(** ** The only lines that make the parser panic *)
Lemma digits_inv max : forall s a v, digits max a s = Some v -> Forall digit s /\ v = a * 10 ^ zlen s + value s /\ (a <= max -> v <= max).
Proof.
  induction s as [|c s IH]; intros a v E; cbn [digits] in E.
  - injection E as <-. split; [apply Forall_nil|]. unfold value. cbn [fold_left]. change (zlen (@nil Z)) with 0. split; lia.
  - destruct ((48 <=? c) && (c <=? 57)) eqn:C; [|discriminate]. apply andb_prop in C. destruct C as (C1 & C2). apply Z.leb_le in C1, C2. cbn zeta in E. destruct (Z.leb_spec (a * 10 + (c - 48)) max) as [LE|_]; [|discriminate]. destruct (IH _ _ E) as (F & V & M). split; [apply Forall_cons; [split; assumption|exact F]|]. split; [|intros _; apply M, LE].
    rewrite V. unfold value at 2. cbn [fold_left]. rewrite fold_value, zlen_cons. pose proof (zlen_nonneg s). rewrite Z.pow_add_r by lia. change (10 ^ 1) with 10. ring.
Qed.
Lemma some_digits_iff max s v : 0 <= max -> some_digits max s = Some v <-> numeral v s /\ v <= max.
Proof.
  intros M. split; [|intros (A & B); apply some_digits_ok; assumption]. unfold some_digits. destruct s as [|c s]; [discriminate|]. intros E. destruct (digits_inv _ _ _ _ E) as (F & V & L). split; [|apply L, M]. split; [discriminate|split; [exact F|lia]].
Qed.
(** a number as the standard library reads it: a plus sign may be before *)
Lemma unsigned_iff max s v : 0 <= max -> parse_unsigned max s = Some v <-> exists d, numeral v d /\ v <= max /\ (s = d \/ s = 43 :: d).
Proof.
  intros M. split.
  - unfold parse_unsigned. destruct s as [|c t]; [discriminate|]. destruct (Z.eqb_spec c 43) as [->|_]; intros E; apply some_digits_iff in E; try exact M; destruct E as (A & B); eexists; split; try exact A; auto.
  - intros (d & A & B & [->| ->]); [apply unsigned_ok; assumption|]. unfold parse_unsigned. change (43 =? 43) with true. cbv iota. apply some_digits_ok; assumption.
Qed.
Lemma hex_no_space s : In 32 s -> forall rem buf, hex_loop s rem buf = None.
Proof.
  induction s as [|c s IH]; intros H rem buf; [contradiction|]. cbn [hex_loop]. destruct H as [->|H].
  - change (hex_to_nibble 32) with (@None Z). reflexivity.
  - destruct (hex_to_nibble c); cbn zeta; [destruct rem; rewrite IH by exact H; reflexivity|]. destruct (_ || _ || _); [apply IH, H|reflexivity].
Qed.
Lemma num_no_panic o k : (forall v, k v <> PPanic) -> num o k <> PPanic.
Proof. intros H. destruct o; cbn [num]; [apply H|discriminate]. Qed.
Lemma of_opt_no_panic {A} (o : option A) k : (forall v, k v <> PPanic) -> of_opt o k <> PPanic.
Proof. intros H. destruct o; cbn [of_opt]; [apply H|discriminate]. Qed.
Lemma func_no_panic toks k : (forall v, k v <> PPanic) -> func toks k <> PPanic.
Proof.
  intros H. induction toks as [|a toks IH]; [discriminate|]. assert (E : func (a :: toks) k = match toks with b :: _ => if same a (str "func") then num (parse_u32 b) k else func toks k | [] => PErr end) by (destruct toks; reflexivity). rewrite E. destruct toks as [|b t]; [discriminate|]. destruct (same a (str "func")); [apply num_no_panic, H|exact IH].
Qed.
Lemma insert_no_panic cmd s v : split 32 s = v -> parse_insert cmd s v <> PPanic.
Proof.
  intros E. unfold parse_insert. destruct v as [|c0 [|n0 [|d0 more]]]; [discriminate|discriminate|destruct (same n0 (str "0")); discriminate|].
  apply num_no_panic. intros n. destruct (n =? 0); [discriminate|].
  destruct (split_inv _ _ _ _ E) as (_ & [(X & _)|(t1 & S1 & E1)]); [discriminate X|]. destruct (split_inv _ _ _ _ E1) as (_ & [(X & _)|(t2 & S2 & E2)]); [discriminate X|].
  assert (ES : s = c0 ++ [32] ++ n0 ++ [32] ++ t2) by (rewrite S1, S2; reflexivity). rewrite ES, insert_text. clear ES S1 S2 E E1.
  destruct more as [|p more].
  - cbn zeta. apply of_opt_no_panic. intros data. destruct (negb _); discriminate.
  - destruct (split_inv _ _ _ _ E2) as (_ & [(X & _)|(t3 & S3 & E3)]); [discriminate X|]. destruct d0 as [|c d0].
    + apply of_opt_no_panic. intros data. destruct (negb _); discriminate.
    + destruct (Z.eqb_spec c 34) as [->|N].
      * apply of_opt_no_panic. intros data. destruct (negb _); discriminate.
      * rewrite S3. cbn [app literal_slice_to_vec]. destruct (Z.eqb_spec c 34); [contradiction|]. unfold hex_slice_to_vec. rewrite hex_no_space by (right; apply in_or_app; right; left; reflexivity). discriminate.
Qed.
Lemma panic_iff s : command_parse s = PPanic <-> exists t n d, s = str "ltype" ++ [32] ++ t /\ numeral n d /\ n < 2 ^ 32 /\ (t = d \/ t = 43 :: d).
Proof.
  split.
  - unfold command_parse. destruct (split 32 s) as [|cmd rest] eqn:E; [contradiction (split_not_nil _ _ E)|].
    destruct (same cmd (str "window")); [discriminate|]. destruct (same cmd (str "prediction")).
    { intros H. exfalso. revert H. unfold parse_prediction. destruct rest as [|m rest]; [discriminate|]. repeat (apply of_opt_no_panic; intros ?). discriminate. }
    destruct (same cmd (str "ctype") || same cmd (str "ltype") || same cmd (str "dtype")) eqn:T.
    { unfold parse_type. destruct rest as [|t [|st [|x rest]]]; [discriminate| | |discriminate].
      - intros H. destruct (parse_u32 t) as [n|] eqn:PT; cbn [num] in H; [|discriminate H]. destruct (same cmd (str "ctype")); [discriminate H|]. destruct (same cmd (str "dtype")); [discriminate H|]. cbn [orb] in T. rewrite orb_false_r in T. apply same_ok in T. subst cmd.
        destruct (split_inv _ _ _ _ E) as (_ & [(X & _)|(t1 & S1 & E1)]); [discriminate X|]. destruct (split_inv _ _ _ _ E1) as (_ & [(_ & S2)|(t2 & _ & E2)]); [|contradiction (split_not_nil _ _ E2)]. subst t1.
        apply unsigned_iff in PT; [|lia]. destruct PT as (d & A & B & C). exists t, n, d. split; [exact S1|]. split; [exact A|]. split; [|exact C]. change (2 ^ 32) with 4294967296. lia.
      - intros H. exfalso. revert H. destruct (same cmd (str "ltype")); [|discriminate]. apply num_no_panic. intros a. apply num_no_panic. intros b. destruct (8 <? b); discriminate. }
    destruct (same cmd (str "copy")).
    { intros H. exfalso. revert H. unfold parse_copy_line. destruct rest as [|n [|fr [|d rest]]]; try discriminate. apply num_no_panic. intros a. destruct (same fr (str "from")); [|discriminate]. apply num_no_panic. intros b. destruct (a =? 0); discriminate. }
    destruct (same cmd (str "dict")).
    { intros H. exfalso. revert H. unfold parse_dict. destruct rest as [|n [|w [|id [|x [|y rest]]]]]; try discriminate. apply num_no_panic. intros a. destruct (same w (str "word")); [|discriminate]. destruct (split 44 id) as [|len [|ix [|z zs]]]; try discriminate. apply num_no_panic. intros b. apply num_no_panic. intros c. apply func_no_panic. discriminate. }
    destruct (same cmd (str "insert") || same cmd (str "rndins")); [|discriminate]. intros H. exfalso. revert H. apply insert_no_panic, E.
  - intros (t & n & d & -> & A & B & C). unfold command_parse. assert (W : word t) by (destruct C as [->| ->]; [exact (numeral_word _ _ A)|intros [Q|Q]; [discriminate Q|exact (numeral_word _ _ A Q)]]).
    cbn [app]. change (str "ltype" ++ 32 :: t) with (line [str "ltype"; t]). rewrite split_head by (repeat apply Forall_cons; try apply Forall_nil; [a_word|exact W]). sames. cbn [parse_type].
    assert (PU : parse_u32 t = Some n) by (apply unsigned_iff; [lia|]; exists d; split; [exact A|]; split; [change (2 ^ 32) with 4294967296 in B; lia|exact C]). rewrite PU. cbn [num]. sames. reflexivity.
Qed.
