(** C67: exactly which lines the reader of the textual format accepts. *)
From Coq Require Import String Ascii.
From Verif Require Import Prelude ModelMux ProofList ProofZlist ModelCdf ModelCmd ModelText SpecText ProofText ProofText2 SpecStrict ProofStrict ThmText.
From Coq Require Import Lia.

Lemma count_zero n s : count (2 ^ 32 - 1) n s -> n = 0 -> count 0 0 s.
Proof. intros (_ & H) ->. split; [lia|exact H]. Qed.
Lemma count_more top n s : n <= top -> count n n s -> count top n s.
Proof. intros L (_ & H). split; [lia|exact H]. Qed.
Ltac words := repeat first [apply Forall_nil | apply Forall_cons; [first [a_word | eapply count_word; eassumption | assumption]|] | apply Forall_app; split | assumption].
Ltac split_words E := apply split_of in E; let W := fresh "W" in destruct E as (-> & W); repeat (let F := fresh "F" in apply Forall_cons_iff in W; destruct W as (F & W)).

(** A line is read as a command exactly if it is one of the accepted ones for it. *)
Theorem C67_accepts_exactly : forall s c, command_parse s = PCmd c <-> accepts c s.
Proof.
  intros s c. split.
  - unfold command_parse. destruct (split 32 s) as [|cmd rest] eqn:E; [discriminate|].
    destruct (same cmd (str "window")); [discriminate|]. destruct (same cmd (str "prediction")) eqn:K1.
    { apply same_ok in K1. subst cmd. destruct rest as [|m words]; [discriminate|]. split_words E. intros H. apply prediction_iff in H; [|assumption].
      destruct H as (mode & lit & dist & mix & ci0 & ci1 & cm0 & cm1 & si0 & si1 & sm0 & sm1 & mi0 & mi1 & mm0 & mm1 & M & E1 & E2 & E3 & L3 & E4 & E5 & E6 & E7 & E8 & E9 & ->). apply ac_prediction; assumption. }
    destruct (same cmd (str "ctype") || same cmd (str "ltype") || same cmd (str "dtype")) eqn:K2.
    { unfold parse_type. destruct rest as [|t [|st [|x rest]]]; [discriminate| | |discriminate].
      - intros H. apply num_cmd in H. destruct H as (n & PT & H). apply u32_iff in PT. rewrite u8_mod in H. split_words E. destruct (same cmd (str "ctype")) eqn:A; [apply same_ok in A; subst cmd; assert (c = BlockSwitchCommand (n mod 256)) by congruence; subst c; apply ac_ctype, PT|]. destruct (same cmd (str "dtype")) eqn:B; [|discriminate H]. apply same_ok in B. subst cmd. assert (c = BlockSwitchDistance (n mod 256)) by congruence. subst c. apply ac_dtype, PT.
      - destruct (same cmd (str "ltype")) eqn:A; [|discriminate]. apply same_ok in A. subst cmd. split_words E. intros H. apply num_cmd in H. destruct H as (n & PT & H). apply num_cmd in H. destruct H as (k & PK & H). apply u32_iff in PT, PK. destruct (Z.ltb_spec 8 k); [discriminate H|]. rewrite u8_mod in H. assert (c = BlockSwitchLiteral (n mod 256) k) by congruence. subst c. apply ac_ltype; [exact PT|]. destruct PK as (_ & PK). split; [lia|exact PK]. }
    destruct (same cmd (str "copy")) eqn:K3.
    { apply same_ok in K3. subst cmd. unfold parse_copy_line. destruct rest as [|n [|fr [|d rest]]]; try discriminate. intros H. apply num_cmd in H. destruct H as (a & PA & H). destruct (same fr (str "from")) eqn:FR; [|discriminate H]. apply same_ok in FR. subst fr. apply num_cmd in H. destruct H as (b & PB & H). destruct (Z.eqb_spec a 0); [discriminate H|]. assert (c = Copy b a) by congruence. subst c. apply u32_iff in PA, PB. split_words E. exact (ac_copy a b n d rest PA PB n0 W). }
    destruct (same cmd (str "dict")) eqn:K4.
    { apply same_ok in K4. subst cmd. unfold parse_dict. destruct rest as [|n [|w [|id [|x [|y rest]]]]]; try discriminate. intros H. apply num_cmd in H. destruct H as (a & PA & H). destruct (same w (str "word")) eqn:WD; [|discriminate H]. apply same_ok in WD. subst w. destruct (split 44 id) as [|len [|ix [|z zs]]] eqn:ID; try discriminate H. apply comma_of in ID. subst id. apply num_cmd in H. destruct H as (b & PB & H). apply num_cmd in H. destruct H as (i & PI & H). apply func_iff in H. destruct H as (mid & st & more & t & Q & NI & PT & H).
      rewrite !u8_mod in H. assert (c = Dict (b mod 256) i (t mod 256) (a mod 256)) by congruence. subst c. apply u32_iff in PA, PB, PI. rewrite Q in E. apply split_of in E. destruct E as (-> & W). do 4 (apply Forall_cons_iff in W; destruct W as (_ & W)). apply Forall_app in W. destruct W as (W1 & W2). cbn [app] in W2. do 2 (apply Forall_cons_iff in W2; destruct W2 as (_ & W2)).
      exact (ac_dict b i t a len ix st n mid more PB PI PT PA W1 NI W2). }
    destruct (same cmd (str "insert") || same cmd (str "rndins")) eqn:K5; [|discriminate]. assert (EC : exists e : bool, cmd = if e then str "rndins" else str "insert"). { apply orb_prop in K5. destruct K5 as [K5|K5]; apply same_ok in K5; [exists false|exists true]; exact K5. }
    destruct EC as (e & ->). destruct rest as [|sn [|d0 more]]; [discriminate|unfold parse_insert; match goal with |- (if ?b then _ else _) = _ -> _ => destruct b end; discriminate|]. destruct (split_inv _ _ _ _ E) as (_ & [(Q & _)|(t1 & -> & E1)]); [discriminate Q|]. destruct (split_inv _ _ _ _ E1) as (WS & [(Q & _)|(text & -> & E2)]); [discriminate Q|]. intros H. rewrite <- E2 in H.
    change ((if e then str "rndins" else str "insert") ++ 32 :: sn ++ 32 :: text) with ((if e then str "rndins" else str "insert") ++ [32] ++ sn ++ [32] ++ text) in *. apply insert_iff in H; [|exact WS]. destruct H as (data & -> & ND & C & DT). apply ac_insert; assumption.
  - intros H. destruct H as [n d sn sd more C1 C2 NZ W|len id t fin slen sid st sfin mid more C1 C2 C3 C4 W1 NI W2|data e sn text ND C DT|t st C|t st C|t st k sk C1 C2|mode name words lit dist mix ci0 ci1 cm0 cm1 si0 si1 sm0 sm1 mi0 mi1 mm0 mm1 M W E1 E2 E3 L3 E4 E5 E6 E7 E8 E9]; unfold command_parse.
    + cbn [app]. rewrite split_head by words. sames. cbn [parse_copy_line]. apply u32_iff in C1, C2. rewrite C1. cbn [num]. sames. rewrite C2. cbn [num]. destruct (Z.eqb_spec n 0); [contradiction|reflexivity].
    + assert (WI : word (slen ++ [44] ++ sid)). { intros Q. apply in_app_or in Q. destruct Q as [Q|[Q|Q]]; [exact (count_word _ _ _ C1 Q)|discriminate Q|exact (count_word _ _ _ C2 Q)]. }
      cbn [app]. rewrite split_head by (do 4 (apply Forall_cons; [first [a_word|eapply count_word; eassumption|exact WI]|]); apply Forall_app; split; [exact W1|]; words). sames. unfold parse_dict. assert (TWO : exists x y r, mid ++ str "func" :: st :: more = x :: y :: r) by (destruct mid as [|x [|y mid]]; cbn [app]; eauto). destruct TWO as (x & y & r & Q). rewrite Q, <- Q. clear x y r Q.
      pose proof (count_no_comma _ _ _ C1) as NC1. pose proof (count_no_comma _ _ _ C2) as NC2. apply u32_iff in C1, C2, C4. rewrite C4. cbn [num]. sames. change (slen ++ 44 :: sid) with (slen ++ 44 :: sid). rewrite split_app by exact NC1. rewrite split_word by exact NC2. rewrite C1. cbn [num]. rewrite C2. cbn [num]. apply func_iff. exists mid, st, more, t. split; [reflexivity|]. split; [exact NI|]. split; [exact C3|]. rewrite !u8_mod. reflexivity.
    + rewrite insert_split by (eapply count_word, C). assert (D : forall k, k = (if e then str "rndins" else str "insert") -> same k (str "window") = false /\ same k (str "prediction") = false /\ same k (str "ctype") || same k (str "ltype") || same k (str "dtype") = false /\ same k (str "copy") = false /\ same k (str "dict") = false /\ same k (str "insert") || same k (str "rndins") = true) by (intros k ->; destruct e; sames; auto 7).
      destruct (D _ eq_refl) as (-> & -> & -> & -> & -> & ->). apply insert_iff; [eapply count_word, C|]. exists data. auto.
    + rewrite split_head by words. sames. cbn [parse_type]. apply u32_iff in C. rewrite C. cbn [num]. sames. rewrite u8_mod. reflexivity.
    + rewrite split_head by words. sames. cbn [parse_type]. apply u32_iff in C. rewrite C. cbn [num]. sames. rewrite u8_mod. reflexivity.
    + rewrite split_head by words. sames. cbn [parse_type]. sames. assert (K : count (2 ^ 32 - 1) k sk) by (destruct C2 as (A & B); split; [lia|exact B]). apply u32_iff in C1, K. rewrite C1. cbn [num]. rewrite K. cbn [num]. destruct (Z.ltb_spec 8 k); [destruct C2; lia|]. rewrite u8_mod. reflexivity.
    + assert (WN : word name) by (cbn [In] in M; repeat destruct M as [M|M]; try contradiction; injection M as <- <-; a_word). rewrite split_head by words. sames. apply prediction_iff; [exact W|]. exists mode, lit, dist, mix, ci0, ci1, cm0, cm1, si0, si1, sm0, sm1, mi0, mi1, mm0, mm1. auto 14.
Qed.
Lemma num_none o k : num o k = PNone <-> exists v, o = Some v /\ k v = PNone.
Proof. destruct o as [v|]; cbn [num]; split; [intros E; eauto|intros (w & Q & E); congruence|discriminate|intros (w & Q & _); discriminate Q]. Qed.
Lemma of_opt_some {A} (o : option A) k : (forall v, k v <> PNone) -> of_opt o k <> PNone.
Proof. intros H. destruct o; cbn [of_opt]; [apply H|discriminate]. Qed.
Lemma func_some : forall toks k, (forall v, k v <> PNone) -> func toks k <> PNone.
Proof.
  intros toks k H. induction toks as [|a toks IH]; [discriminate|]. assert (E : func (a :: toks) k = match toks with b :: _ => if same a (str "func") then num (parse_u32 b) k else func toks k | [] => PErr end) by (destruct toks; reflexivity). rewrite E. destruct toks as [|b t]; [discriminate|]. destruct (same a (str "func")); [|exact IH]. destruct (parse_u32 b); cbn [num]; [apply H|discriminate].
Qed.
Lemma insert_none (e : bool) sn text : parse_insert (if e then str "rndins" else str "insert") ((if e then str "rndins" else str "insert") ++ [32] ++ sn ++ [32] ++ text) ((if e then str "rndins" else str "insert") :: sn :: split 32 text) = PNone <-> count 0 0 sn.
Proof.
  unfold parse_insert. destruct (split 32 text) as [|d0 more] eqn:ST; [contradiction (split_not_nil _ _ ST)|]. rewrite num_none. split.
  - intros (n & PN & E). apply usize_iff in PN. destruct (Z.eqb_spec n 0) as [->|]; [destruct PN as (_ & PN); split; [lia|exact PN]|]. exfalso. revert E. apply of_opt_some. intros data. cbn zeta. destruct (match more with [] => None | _ => _ end) as [p|].
    + apply of_opt_some. intros prob. destruct (_ =? _); [|discriminate]. destruct (negb _); [discriminate|]. destruct prob; discriminate.
    + destruct (negb _); discriminate.
  - intros C. exists 0. split; [apply usize_iff; destruct C as (_ & C); split; [lia|exact C]|reflexivity].
Qed.
(** A line is read as no command exactly if it is one of the ignored ones. *)
Theorem C67_ignores_exactly : forall s, command_parse s = PNone <-> ignored s.
Proof.
  intros s. split.
  - unfold command_parse. destruct (split 32 s) as [|cmd rest] eqn:E; [discriminate|].
    destruct (same cmd (str "window")) eqn:K0; [apply same_ok in K0; subst cmd; split_words E; intros _; apply ig_window, W|]. destruct (same cmd (str "prediction")).
    { intros H. exfalso. revert H. unfold parse_prediction. destruct rest as [|m rest]; [discriminate|]. repeat (apply of_opt_some; intros ?). discriminate. }
    destruct (same cmd (str "ctype") || same cmd (str "ltype") || same cmd (str "dtype")).
    { unfold parse_type. destruct rest as [|t [|st [|x rest]]]; [discriminate| | |discriminate].
      - intros H. apply num_none in H. destruct H as (n & _ & H). destruct (same cmd (str "ctype")); [discriminate H|]. destruct (same cmd (str "dtype")); discriminate H.
      - destruct (same cmd (str "ltype")); [|discriminate]. intros H. apply num_none in H. destruct H as (n & _ & H). apply num_none in H. destruct H as (k & _ & H). destruct (8 <? k); discriminate H. }
    destruct (same cmd (str "copy")) eqn:K3.
    { apply same_ok in K3. subst cmd. unfold parse_copy_line. destruct rest as [|n [|fr [|d rest]]]; try discriminate. intros H. apply num_none in H. destruct H as (a & PA & H). destruct (same fr (str "from")) eqn:FR; [|discriminate H]. apply same_ok in FR. subst fr. apply num_none in H. destruct H as (b & PB & H). destruct (Z.eqb_spec a 0) as [AZ|]; [|discriminate H]. apply u32_iff in PA, PB. split_words E. exact (ig_copy n b d rest (count_zero _ _ PA AZ) PB W). }
    destruct (same cmd (str "dict")).
    { unfold parse_dict. destruct rest as [|n [|w [|id [|x [|y rest]]]]]; try discriminate. intros H. apply num_none in H. destruct H as (a & PA & H). destruct (same w (str "word")); [|discriminate H]. destruct (split 44 id) as [|len [|ix [|z zs]]]; try discriminate H. apply num_none in H. destruct H as (b & PB & H). apply num_none in H. destruct H as (i & PI & H). exfalso. revert H. apply func_some. discriminate. }
    destruct (same cmd (str "insert") || same cmd (str "rndins")) eqn:K5; [|discriminate]. assert (EC : exists e : bool, cmd = if e then str "rndins" else str "insert"). { apply orb_prop in K5. destruct K5 as [K5|K5]; apply same_ok in K5; [exists false|exists true]; exact K5. }
    destruct EC as (e & ->). destruct rest as [|sn [|d0 more]]; [discriminate| |].
    + unfold parse_insert. destruct (same sn (str "0")) eqn:Z0; [|discriminate]. apply same_ok in Z0. subst sn. intros _. split_words E. apply ig_insert.
    + destruct (split_inv _ _ _ _ E) as (_ & [(Q & _)|(t1 & -> & E1)]); [discriminate Q|]. destruct (split_inv _ _ _ _ E1) as (WS & [(Q & _)|(text & -> & E2)]); [discriminate Q|]. intros H. rewrite <- E2 in H.
      change ((if e then str "rndins" else str "insert") ++ 32 :: sn ++ 32 :: text) with ((if e then str "rndins" else str "insert") ++ [32] ++ sn ++ [32] ++ text) in *. apply insert_none in H. apply ig_insert_more, H.
  - assert (D : forall e : bool, forall k, k = (if e then str "rndins" else str "insert") -> same k (str "window") = false /\ same k (str "prediction") = false /\ same k (str "ctype") || same k (str "ltype") || same k (str "dtype") = false /\ same k (str "copy") = false /\ same k (str "dict") = false /\ same k (str "insert") || same k (str "rndins") = true) by (intros e k ->; destruct e; sames; auto 7).
    intros H. destruct H as [more W|e|e sn text C|sn d sd more C1 C2 W]; unfold command_parse.
    + rewrite split_head by words. sames. reflexivity.
    + rewrite split_head by (apply Forall_cons; [destruct e; a_word|words]). destruct (D e _ eq_refl) as (-> & -> & -> & -> & -> & ->). unfold parse_insert. sames. reflexivity.
    + rewrite insert_split by (eapply count_word, C). destruct (D e _ eq_refl) as (-> & -> & -> & -> & -> & ->). apply insert_none, C.
    + cbn [app]. rewrite split_head by words. sames. cbn [parse_copy_line]. assert (C0 : count (2 ^ 32 - 1) 0 sn) by (destruct C1 as (_ & C1); split; [lia|exact C1]). apply u32_iff in C0, C2. rewrite C0. cbn [num]. sames. rewrite C2. reflexivity.
Qed.
(** Every other line is reported as an error, except the one shape that panics (C58). *)
Theorem C67_the_rest_is_an_error : forall s, command_parse s = PErr <->
  (forall c, ~ accepts c s) /\ ~ ignored s /\ ~ exists t n d, s = str "ltype" ++ [32] ++ t /\ numeral n d /\ n < 2 ^ 32 /\ (t = d \/ t = 43 :: d).
Proof.
  intros s. rewrite <- C67_ignores_exactly, <- C58_panics_exactly_on. split.
  - intros E. split; [intros c A; apply C67_accepts_exactly in A; congruence|]. split; congruence.
  - intros (A & B & C). destruct (command_parse s) as [|c| |] eqn:E; [contradiction B; reflexivity|contradiction (A c); apply C67_accepts_exactly, E|reflexivity|contradiction C; reflexivity].
Qed.
(** Hence: an odd number of hexadecimal digits, an open quotation, a wrong count are
    reported. *)
Theorem C67_counts_and_quotes : forall (e : bool) sn text c, word sn -> command_parse ((if e then str "rndins" else str "insert") ++ [32] ++ sn ++ [32] ++ text) = PCmd c ->
  exists data, c = Literal data e /\ count (2 ^ 64 - 1) (zlen data) sn /\
    (zlen (filter visible text) = 2 * zlen data \/ exists q, quoted_text data q /\ text = [34] ++ q ++ [34]).
Proof.
  intros e sn text c W H. unfold command_parse in H. rewrite insert_split in H by exact W. assert (D : forall e : bool, forall k, k = (if e then str "rndins" else str "insert") -> same k (str "window") = false /\ same k (str "prediction") = false /\ same k (str "ctype") || same k (str "ltype") || same k (str "dtype") = false /\ same k (str "copy") = false /\ same k (str "dict") = false /\ same k (str "insert") || same k (str "rndins") = true) by (clear; intros e k ->; destruct e; sames; auto 7).
  destruct (D e _ eq_refl) as (Q1 & Q2 & Q3 & Q4 & Q5 & Q6). rewrite Q1, Q2, Q3, Q4, Q5, Q6 in H. apply insert_iff in H; [|exact W]. destruct H as (data & -> & ND & C & [HT|DT]); exists data; (split; [reflexivity|]; split; [exact C|]); [left|right; exact DT].
  clear - HT. induction HT as [|h l b c1 c2 s _ _ _ IH]; [reflexivity|]. rewrite !zlen_cons. lia.
Qed.
(** Cases: one line of each kind; a plus sign and a cut off number; and lines refused. *)
Example C67_case : accepts (Copy 7 5) (str "copy +5 from 7") /\ accepts (BlockSwitchCommand 1) (str "ctype 257") /\ accepts (Literal [171; 18] false) (str "insert 2 aB12") /\ ignored (str "copy 0 from 9") /\
  (forall c, ~ accepts c (str "insert 2 aB1")) /\ command_parse (str "insert 2 aB1") = PErr /\ command_parse (str "copy 5 from -7") = PErr /\ command_parse (str "copy 4294967296 from 7") = PErr /\
  (exists p, accepts (PredictionMode p) (str "prediction utf8 lcontextmap 1 +2 x 3 cmspeedinc 16") /\ lit_map p = [1; 2]).
Proof.
  do 3 (split; [apply C67_accepts_exactly; vm_compute; reflexivity|]). split; [apply C67_ignores_exactly; vm_compute; reflexivity|]. split; [intros c A; apply C67_accepts_exactly in A; vm_compute in A; discriminate A|]. do 3 (split; [vm_compute; reflexivity|]).
  eexists. split; [apply C67_accepts_exactly; cbv -[Z.to_nat repeat app]; reflexivity|]. reflexivity.
Qed.
Print Assumptions C67_accepts_exactly.
Print Assumptions C67_ignores_exactly.
Print Assumptions C67_the_rest_is_an_error.
Print Assumptions C67_counts_and_quotes.
