(** Decompressor: the ideal run of the coder, split into what the worker does with the
    command stream and what the main thread does with the literal stream. *)
From Verif Require Import Prelude ProofList ModelAns ModelCdf SpecCdf ModelMux ProofZlist ModelCmd ModelRecode SpecLz ModelPriors ModelCodec ModelLit ModelPm ModelTop SpecCodec SpecReplay ModelEnc ModelDec.

(** ** Traces *)
Section Traces.
Context (dict : dict_fn) (wl : word_len_fn) (D : dims) (wlen : Z).

(** the worker, if its prediction mode never left it *)
Definition wi_node (c : codec unit) : tnode unit :=
  match k_st c with
  | TPm PmFully => NSilent (Next (kset c (k_bk c) (TPop (PredictionMode (k_pm c)))))
  | _ => w_node wl D c
  end.
Definition is_pop (t : top) : Prop := match t with TPop _ => True | _ => False end.
Inductive wtr : nat -> codec unit -> list ev -> list command -> Prop :=
| wt_code n c cdf k v c' es o : has_speeds (k_pm c) = true -> wi_node c = NCode CMD cdf k -> codable cdf -> nibble v -> k v = Next c' -> wtr n c' es o -> wtr (S n) c (Ev CMD cdf v :: es) o
| wt_silent n c c' es o : has_speeds (k_pm c) = true -> wi_node c = NSilent (Next c') -> wtr n c' es o -> wtr (S n) c es o
| wt_adv n c c' x es o : has_speeds (k_pm c) = true -> ~ is_pop (k_st c) -> wi_node c = NAdvance c' x -> wtr n c' es o -> wtr (S n) c es o
| wt_pop n c cmd es o : has_speeds (k_pm c) = true -> k_st c = TPop cmd -> wtr n (kset c (k_bk c) TBegin) es o -> wtr (S n) c es (cmd :: o)
| wt_end c : has_speeds (k_pm c) = true -> k_st c = TEnd -> wtr 0 c [] [].

(** the content of a literal *)
Inductive ltr (mix : bool) : lbk -> lit_st -> list ev -> lbk -> lit_st -> Prop :=
| lt_done l s : l_sub s = LFully -> ltr mix l s [] l s
| lt_step l s cdf k v l' s' es l2 s2 : lit_node mix bk_new l s = Code LIT cdf k -> codable cdf -> nibble v -> k v = Next (bk_new, l', s') ->
    ltr mix l' s' es l2 s2 -> ltr mix l s (Ev LIT cdf v :: es) l2 s2.
(** the main thread between commands *)
Inductive mtr : lbk -> bool -> list Z -> list command -> list ev -> list Z -> Prop :=
| mt_nil l mix h : mtr l mix h [] [] h
| mt_move l mix h c outs les hf : match c with Copy _ _ | Dict _ _ _ _ => True | _ => False end -> replayableb dict wlen c = true ->
    mtr l mix (h ++ meaning1 dict h c) outs les hf -> mtr l mix h (c :: outs) les hf
| mt_lit l mix h n he outs les1 l1 s1 les2 hf : 
    ltr mix (set_last_8 l (rlast8 (lz_replayer dict wlen) h)) (LS [] n false (LNibble 0)) les1 l1 s1 ->
    mtr l1 mix (h ++ l_data s1) outs les2 hf -> mtr l mix h (Literal (repeat 0 (Z.to_nat n)) he :: outs) (les1 ++ les2) hf
| mt_bsl l mix h t stride outs les hf : mtr (set_btype_last l t) (traits (set_btype_last l t)) h outs les hf -> mtr l mix h (BlockSwitchLiteral t stride :: outs) les hf
| mt_pm l mix h p l' outs les hf : obs_prediction_mode l p = Next l' -> mtr l' (traits l') h outs les hf -> mtr l mix h (PredictionMode p :: outs) les hf.

(** ** The literal coder *)
Definition sethe (s : lit_st) (he : bool) : lit_st := LS (l_data s) (l_len s) he (l_sub s).
Definition in_content (u : lit_sub) : Prop := match u with LNibble _ | LLower _ _ => True | _ => False end.
Lemma should_mix_update w a b c : should_mix (weights_update w a b c) = should_mix w.
Proof. unfold weights_update. destruct (normalize_weights _ _). reflexivity. Qed.
Lemma code_nibble_two {S1 S2} mix l high cp (k1 : lbk -> Z -> outcome S1) (k2 : lbk -> Z -> outcome S2) :
  code_nibble mix l high cp k1 = Silent Panic \/
  exists cdf u1 u2, code_nibble mix l high cp k1 = Code LIT cdf u1 /\ code_nibble mix l high cp k2 = Code LIT cdf u2 /\
    forall v s, u1 v = Next s -> exists l', traits l' = traits l /\ u1 v = k1 l' v /\ u2 v = k2 l' v.
Proof.
  unfold code_nibble. destruct (mm_opts_of l high cp) as [o|]; [|left; reflexivity]. destruct (prior_index _ _ (nibble_index l high cp o)) as [i|]; [|left; reflexivity].
  destruct mix; cbn [negb].
  - destruct (if high then _ else _) as [j|]; [|left; reflexivity]. right. do 3 eexists. split; [reflexivity|]. split; [reflexivity|].
    intros v s. cbn beta. destruct (negb (should_mix (if high then wt_high l else wt_low l))); [discriminate|]. intros E.
    destruct (nth_pair _ (if high then 3 else 2)) as [inc lim]. eexists. split; [|split; reflexivity].
    destruct (o =? 2); [|destruct (nth_pair _ 0) as [a b]]; unfold traits; destruct high; cbn [wt_low wt_high set_lpriors set_weights]; rewrite should_mix_update; reflexivity.
  - right. do 3 eexists. split; [reflexivity|]. split; [reflexivity|]. intros v s E. eexists. split; [|split; reflexivity].
    destruct (o =? 2); [reflexivity|]. destruct (nth_pair _ 0) as [a b]. reflexivity.
Qed.
Lemma lit_content mix b l s he : in_content (l_sub s) ->
  lit_node mix b l s = Silent Panic \/
  exists cdf k k', lit_node mix b l s = Code LIT cdf k /\ lit_node mix bk_new l (sethe s he) = Code LIT cdf k' /\
    forall v b2 l' s', k v = Next (b2, l', s') -> b2 = b /\ k' v = Next (bk_new, l', sethe s' he) /\ traits l' = traits l /\ (in_content (l_sub s') \/ l_sub s' = LFully).
Proof.
  unfold lit_node. cbn [sethe l_sub l_len l_data]. destruct (l_sub s) as [| | | | |i|i h|] eqn:U; try contradiction; intros _.
  - destruct (code_nibble_two mix l true 0 (fun l v => Next (b, l, lset s (LLower i v))) (fun l v => Next (bk_new, l, lset (sethe s he) (LLower i v)))) as [E|(cdf & u1 & u2 & E1 & E2 & EQ)]; [left; exact E|right].
    exists cdf, u1, u2. split; [exact E1|]. split; [unfold sethe in E2; rewrite U in E2; exact E2|]. intros v b2 l' s' E. destruct (EQ v _ E) as (l1 & T & F1 & F2). rewrite F1 in E. injection E as <- <- <-. rewrite F2.
    split; [reflexivity|]. split; [reflexivity|]. split; [exact T|]. left. exact Logic.I.
  - match goal with |- code_nibble _ _ _ _ ?k1 = _ \/ (exists cdf k k', _ /\ code_nibble _ _ _ _ ?k2 = _ /\ _) => destruct (code_nibble_two mix l false h k1 k2) as [E|(cdf & u1 & u2 & E1 & E2 & EQ)] end; [left; exact E|right].
    exists cdf, u1, u2. split; [exact E1|]. split; [exact E2|]. intros v b2 l' s' E. destruct (EQ v _ E) as (l1 & T & F1 & F2). rewrite F1 in E. injection E as <- <- <-. rewrite F2.
    split; [reflexivity|]. split; [reflexivity|]. split; [exact T|]. cbn [l_sub]. destruct (_ =? _); [right|left]; cbn; auto.
Qed.

(** ** The worker's view of a state *)
Definition wview {R} (c : codec R) : codec unit := K (k_bk c) lbk_new false (k_pm c) tt (k_st c).
Definition hstate (t : top) : Prop :=
  match t with
  | TPop _ | TEnd | TBsl (LbFully _ _) | TPm PmFully | TBsc (BtFully _) | TBsd (BtFully _) => False
  | TLit s => match l_sub s with LNibble _ | LLower _ _ | LFully => False | _ => True end
  | _ => True
  end.
Definition past (u : lit_sub) : Prop := match u with LNibble _ | LLower _ _ | LFully => True | _ => False end.
(** states the worker passes through *)
Definition cstate (t : top) : Prop :=
  match t with
  | TLit s => ~ past (l_sub s) \/ (l_data s = [] /\ l_sub s = LNibble 0)
  | TPop c => match c with Copy _ _ | Dict _ _ _ _ => True | _ => False end
  | _ => True
  end.
Definition keeps {R} (c c' : codec R) : Prop := k_lbk c' = k_lbk c /\ k_mix c' = k_mix c /\ k_rec c' = k_rec c /\ has_speeds (k_pm c') = has_speeds (k_pm c) /\ cstate (k_st c').
Definition cmd_node {A} (Q : A -> Prop) (n : node A) : Prop :=
  match n with Code st _ k => st = CMD /\ forall v a, k v = Next a -> Q a | Silent (Next a) => Q a | _ => True end.
Definition viewed {R} (c : codec R) (n : tnode R) (n' : tnode unit) : Prop :=
  match n with
  | NCode st d k => st = CMD /\ exists k', n' = NCode CMD d k' /\ forall v c', k v = Next c' -> k' v = Next (wview c') /\ keeps c c'
  | NSilent (Next c') => n' = NSilent (Next (wview c')) /\ keeps c c'
  | NSilent _ => True
  | _ => False
  end.
Lemma lift_view {R A} (c : codec R) (Q : A -> Prop) (f : A -> codec R) (f' : A -> codec unit) d d' (n : node A) :
  cmd_node Q n -> (forall a, Q a -> f' a = wview (f a) /\ keeps c (f a)) -> (forall x, d = Next x -> d' = Next (wview x) /\ keeps c x) ->
  viewed c (lift f d n) (lift f' d' n).
Proof.
  intros CN F Dd. unfold lift, map_node. destruct n as [st cdf k|o|]; cbn [viewed cmd_node] in *.
  - destruct CN as (-> & CN). split; [reflexivity|]. eexists. split; [reflexivity|]. intros v x. cbn beta. destruct (k v) as [a|e|] eqn:E; cbn [map_outcome]; try discriminate.
    intros [= <-]. destruct (F a (CN v a E)) as (-> & KE). auto.
  - destruct o as [a|e|]; cbn [map_outcome viewed]; auto. destruct (F a CN) as (-> & KE). auto.
  - destruct d as [x|e|]; cbn [viewed]; auto. destruct (Dd x eq_refl) as (-> & KE). auto.
Qed.
Lemma code_cmd {A} (Q : A -> Prop) b c bl ix sp (k : bk -> Z -> outcome A) : (forall b v a, k b v = Next a -> Q a) -> cmd_node Q (code b c bl ix sp k).
Proof. intros H. unfold code. destruct (prior_index c bl ix); cbn [cmd_node]; [|exact Logic.I]. split; [reflexivity|]. intros v a. apply H. Qed.
Ltac cmdn := first [exact Logic.I | apply code_cmd; intros ? ? ? _; exact Logic.I].
Lemma copy_cmd b s : cmd_node (fun _ => True) (copy_node b s).
Proof. unfold copy_node. destruct (c_sub s); cmdn. Qed.
Lemma dict_cmd b s : cmd_node (fun _ => True) (dict_node wl b s).
Proof. unfold dict_node. destruct (d_sub s); cmdn. Qed.
Lemma btype_cmd i b s : cmd_node (fun _ => True) (btype_node i b s).
Proof. unfold btype_node. destruct s; cmdn. Qed.
Lemma lbtype_cmd b s : cmd_node (fun _ => True) (lbtype_node b s).
Proof.
  unfold lbtype_node. destruct s as [|u|t|t u]; try cmdn.
  destruct u; try exact Logic.I; match goal with |- context [btype_node 0 b ?u] => pose proof (btype_cmd 0 b u) as H; destruct (btype_node 0 b u) as [st d k|[a|e|]|] end; cbn [map_node map_outcome cmd_node] in *; auto; destruct H as (-> & _); auto.
Qed.
Lemma pm_store_speeds p d i v p' : pm_store p d i v = Some p' -> has_speeds p' = has_speeds p.
Proof. unfold pm_store. destruct d; destruct (_ <? _); try discriminate; intros [= <-]; reflexivity. Qed.
Lemma pm_cmd b p u : cmd_node (fun a => has_speeds (fst (snd a)) = has_speeds p) (pm_node D b (p, u)).
Proof.
  unfold pm_node. destruct u; try (apply code_cmd; intros b' v a); try exact Logic.I; try (intros [= <-]; reflexivity).
  - destruct (_ =? _); [|intros [= <-]; reflexivity]. repeat (destruct (store_speed _); [|discriminate]). intros [= <-]; reflexivity.
  - destruct (_ =? 14); [destruct distance; intros [= <-]; reflexivity|]. destruct (_ =? 15); [intros [= <-]; reflexivity|].
    destruct (obs_context_map _ _ _ _); [|discriminate]. destruct (pm_store _ _ _ _) eqn:E; [|discriminate]. intros [= <-]. apply (pm_store_speeds _ _ _ _ _ E).
  - destruct (pm_store _ _ _ _) eqn:E; [|discriminate]. destruct (obs_context_map _ _ _ _); [|discriminate]. intros [= <-]. apply (pm_store_speeds _ _ _ _ _ E).
  - destruct (_ <? _); [|discriminate]. intros [= <-]. reflexivity.
Qed.
Lemma begin_view {R} (c : codec R) b v x : begin_command c b v = Next x -> begin_command (wview c) b v = Next (wview x) /\ keeps c x.
Proof.
  unfold begin_command. repeat (destruct (_ =? _); [intros [= <-]; split; [reflexivity|repeat split; cbn; auto]|]). discriminate.
Qed.
Ltac kp := unfold keeps; repeat split; cbn [k_lbk k_mix k_rec k_pm k_st kset]; auto.
Section Step.
Context {R : Type} (RR : replayer R) (b : bk) (l : lbk) (mx : bool) (p : predmode) (r : R).
Notation C := (K b l mx p r).
Notation VIEW t := (viewed (C t) (top_node RR wl D (C t)) (wi_node (wview (C t)))).
Lemma hstep_begin : VIEW TBegin.
Proof.
  unfold wi_node, w_node, top_node. cbn [wview k_st k_bk k_lbk k_mix k_pm k_rec].
  unfold code. destruct (prior_index _ _ _); cbn [viewed]; [|exact Logic.I]. split; [reflexivity|]. eexists. split; [reflexivity|]. intros v x. apply begin_view.
Qed.
Lemma hstep_dict s : VIEW (TDict s).
Proof.
  unfold wi_node, w_node, top_node. cbn [wview k_st k_bk k_lbk k_mix k_pm k_rec].
  apply (lift_view (C _) (fun _ => True)); [apply dict_cmd|intros a _; split; [reflexivity|kp]|intros x [= <-]; split; [reflexivity|kp]].
Qed.
Lemma hstep_copy s : VIEW (TCopy s).
Proof.
  unfold wi_node, w_node, top_node. cbn [wview k_st k_bk k_lbk k_mix k_pm k_rec].
  apply (lift_view (C _) (fun _ => True)); [apply copy_cmd|intros a _; split; [reflexivity|kp]|intros x [= <-]; split; [reflexivity|kp]].
Qed.
Lemma top_bsl s : hstate (TBsl s) -> top_node RR wl D (C (TBsl s)) = lift (fun x => kset (C (TBsl s)) (fst x) (TBsl (snd x))) Panic (lbtype_node b s).
Proof. destruct s; intros H; try contradiction H; reflexivity. Qed.
Lemma wi_bsl s : hstate (TBsl s) -> wi_node (wview (C (TBsl s))) = lift (fun x => kset (wview (C (TBsl s))) (fst x) (TBsl (snd x))) Panic (lbtype_node b s).
Proof. destruct s; intros H; try contradiction H; reflexivity. Qed.
Lemma hstep_bsl s : hstate (TBsl s) -> VIEW (TBsl s).
Proof.
  intros H. rewrite (top_bsl s H), (wi_bsl s H).
  apply (lift_view (C (TBsl s)) (fun _ => True)); [apply lbtype_cmd|intros a HS; split; [reflexivity|kp]|discriminate].
Qed.
Lemma top_bsc s : hstate (TBsc s) -> top_node RR wl D (C (TBsc s)) = lift (fun x => kset (C (TBsc s)) (fst x) (TBsc (snd x))) Panic (btype_node 1 b s).
Proof. destruct s; intros H; try contradiction H; reflexivity. Qed.
Lemma wi_bsc s : hstate (TBsc s) -> wi_node (wview (C (TBsc s))) = lift (fun x => kset (wview (C (TBsc s))) (fst x) (TBsc (snd x))) Panic (btype_node 1 b s).
Proof. destruct s; intros H; try contradiction H; reflexivity. Qed.
Lemma hstep_bsc s : hstate (TBsc s) -> VIEW (TBsc s).
Proof.
  intros H. rewrite (top_bsc s H), (wi_bsc s H).
  apply (lift_view (C (TBsc s)) (fun _ => True)); [apply btype_cmd|intros a HS; split; [reflexivity|kp]|discriminate].
Qed.
Lemma top_bsd s : hstate (TBsd s) -> top_node RR wl D (C (TBsd s)) = lift (fun x => kset (C (TBsd s)) (fst x) (TBsd (snd x))) Panic (btype_node 2 b s).
Proof. destruct s; intros H; try contradiction H; reflexivity. Qed.
Lemma wi_bsd s : hstate (TBsd s) -> wi_node (wview (C (TBsd s))) = lift (fun x => kset (wview (C (TBsd s))) (fst x) (TBsd (snd x))) Panic (btype_node 2 b s).
Proof. destruct s; intros H; try contradiction H; reflexivity. Qed.
Lemma hstep_bsd s : hstate (TBsd s) -> VIEW (TBsd s).
Proof.
  intros H. rewrite (top_bsd s H), (wi_bsd s H).
  apply (lift_view (C (TBsd s)) (fun _ => True)); [apply btype_cmd|intros a HS; split; [reflexivity|kp]|discriminate].
Qed.
Lemma top_pm u : hstate (TPm u) -> top_node RR wl D (C (TPm u)) = lift (fun x => K (fst x) l mx (fst (snd x)) r (TPm (snd (snd x)))) Panic (pm_node D b (p, u)).
Proof. destruct u; intros H; try contradiction H; reflexivity. Qed.
Lemma wi_pm u : hstate (TPm u) -> wi_node (wview (C (TPm u))) = lift (fun x => K (fst x) lbk_new false (fst (snd x)) tt (TPm (snd (snd x)))) Panic (pm_node D b (p, u)).
Proof. destruct u; intros H; try contradiction H; reflexivity. Qed.
Lemma hstep_pm u : hstate (TPm u) -> VIEW (TPm u).
Proof.
  intros H. rewrite (top_pm u H), (wi_pm u H).
  apply (lift_view (C (TPm u)) (fun a => has_speeds (fst (snd a)) = has_speeds p)); [apply pm_cmd|intros a HS; split; [reflexivity|kp]|discriminate].
Qed.
Lemma lit_view s (n : node (bk * lbk * lit_st)) (n' : node (bk * lbk * lit_st)) d d' :
  match n with
  | Code st cdf k => st = CMD /\ exists k', n' = Code CMD cdf k' /\ forall v b' l' s', k v = Next (b', l', s') -> k' v = Next (b', lbk_new, s') /\ l' = l /\ (~ past (l_sub s') \/ (l_data s' = [] /\ l_sub s' = LNibble 0))
  | Silent (Next (b', l', s')) => n' = Silent (Next (b', lbk_new, s')) /\ l' = l /\ (~ past (l_sub s') \/ (l_data s' = [] /\ l_sub s' = LNibble 0))
  | Silent _ => True
  | Done => False
  end ->
  viewed (C (TLit s)) (lift (fun x => K (fst (fst x)) (snd (fst x)) mx p r (TLit (snd x))) d n) (lift (fun x => K (fst (fst x)) (snd (fst x)) false p tt (TLit (snd x))) d' n').
Proof.
  destruct n as [st cdf k|[[[b' l'] s']|e|]|]; cbn [lift map_node map_outcome viewed]; auto.
  - intros (-> & k' & -> & H). split; [reflexivity|]. eexists. split; [reflexivity|]. intros v x. cbn beta. destruct (k v) as [[[b' l'] s']|e|] eqn:E; cbn [map_outcome]; try discriminate.
    intros [= <-]. destruct (H v b' l' s' E) as (-> & -> & X). cbn [map_outcome fst snd]. split; [reflexivity|kp].
  - intros (-> & -> & X). cbn [fst snd]. split; [reflexivity|kp].
  - intros [].
Qed.
Lemma hstep_lit s : hstate (TLit s) -> VIEW (TLit s).
Proof.
  intros H. unfold wi_node, w_node, top_node. cbn [wview k_st k_bk k_lbk k_mix k_pm k_rec hstate] in *.
  assert (G : forall d d', viewed (C (TLit s)) (lift (fun x => K (fst (fst x)) (snd (fst x)) mx p r (TLit (snd x))) d (lit_node mx b l s)) (lift (fun x => K (fst (fst x)) (snd (fst x)) false p tt (TLit (snd x))) d' (lit_node false b lbk_new s))).
  { intros d d'. apply lit_view. unfold lit_node. destruct (l_sub s) as [| | | | |i|i h|]; try contradiction H.
    - split; [reflexivity|]. split; [reflexivity|]. left. intros [].
    - unfold code. destruct (prior_index _ _ _); [|exact Logic.I]. split; [reflexivity|]. eexists. split; [reflexivity|]. intros v b' l' s'. cbn beta.
      destruct (v =? 14); [|destruct (v =? 15)]; intros [= <- <- <-]; (split; [reflexivity|]); (split; [reflexivity|]); cbn; auto.
    - unfold code. destruct (prior_index _ _ _); [|exact Logic.I]. split; [reflexivity|]. eexists. split; [reflexivity|]. intros v b' l' s'. cbn beta.
      destruct (v =? 15); [|destruct (v <=? 1)]; intros [= <- <- <-]; (split; [reflexivity|]); (split; [reflexivity|]); cbn; auto.
    - unfold code. destruct (prior_index _ _ _); [|exact Logic.I]. split; [reflexivity|]. eexists. split; [reflexivity|]. intros v b' l' s'. cbn beta.
      intros [= <- <- <-]; (split; [reflexivity|]); (split; [reflexivity|]); cbn; auto.
    - unfold code. destruct (prior_index _ _ _); [|exact Logic.I]. split; [reflexivity|]. eexists. split; [reflexivity|]. intros v b' l' s'. cbn beta.
      destruct (_ =? 0); intros [= <- <- <-]; (split; [reflexivity|]); (split; [reflexivity|]); cbn; auto. }
  destruct (l_sub s) as [| | | | |i|i h|]; try contradiction H; apply G.
Qed.
End Step.
Lemma hstep {R} (RR : replayer R) (c : codec R) : hstate (k_st c) -> viewed c (top_node RR wl D c) (wi_node (wview c)).
Proof.
  destruct c as [b l mx p r t]. cbn [k_st]. intros H. destruct t as [|s|s|s|s|s|s|u|cmd|].
  - apply hstep_begin. - apply hstep_lit, H. - apply hstep_dict. - apply hstep_copy. - apply hstep_bsl, H. - apply hstep_bsc, H. - apply hstep_bsd, H.
  - apply hstep_pm, H. - contradiction H. - contradiction H.
Qed.

(** ** Splitting a run *)
Notation RR := (lz_replayer dict wlen).
Notation ENC := (enc_cmd RR wl D).
Definition eq8 (l l' : lbk) : Prop := set_last_8 l 0 = set_last_8 l' 0.
Lemma eq8_set l l' x : eq8 l l' -> set_last_8 l x = set_last_8 l' x.
Proof. destruct l, l'. unfold eq8, set_last_8. cbn. intros [= -> -> -> -> -> -> -> ->]. reflexivity. Qed.
Lemma eq8_traits l l' : eq8 l l' -> traits l = traits l'.
Proof. destruct l, l'. unfold eq8, set_last_8, traits. cbn. intros [= -> -> -> -> -> -> -> ->]. reflexivity. Qed.
Lemma eq8_btype l l' t : eq8 l l' -> eq8 (set_btype_last l t) (set_btype_last l' t).
Proof. destruct l, l'. unfold eq8, set_last_8, set_btype_last. cbn. intros [= -> -> -> -> -> -> -> ->]. reflexivity. Qed.
Lemma eq8_pm l l' p l1 : eq8 l l' -> obs_prediction_mode l' p = Next l1 -> exists l2, obs_prediction_mode l p = Next l2 /\ eq8 l2 l1.
Proof.
  intros E. unfold obs_prediction_mode. destruct (negb _); [discriminate|]. repeat (destruct (speed_of_f8 _); [|discriminate]). intros [= <-]. eexists. split; [reflexivity|].
  destruct l, l'. unfold eq8, set_last_8 in *. cbn in *. injection E as -> -> -> -> -> -> -> ->. reflexivity.
Qed.
Lemma eq8_refl l x : eq8 l (set_last_8 l x).
Proof. reflexivity. Qed.

Lemma content_trace g cmd e : forall fuel c s c' x es, k_st c = TLit s -> in_content (l_sub s) \/ l_sub s = LFully -> ENC fuel g cmd e c = Some (c', x, es) -> writable es ->
  exists l1 s1, ltr (k_mix c) (k_lbk c) (sethe s false) es l1 s1 /\ filter (on CMD) es = [] /\ filter (on LIT) es = es /\ x <> None /\
    c' = K (k_bk c) (set_last_8 l1 (rlast8 RR (k_rec c ++ l_data s1))) (k_mix c) (k_pm c) (k_rec c ++ l_data s1) TBegin /\ traits l1 = traits (k_lbk c).
Proof.
  induction fuel as [|fuel IH]; intros c s c' x es ST IC; [discriminate|]. cbn [enc_cmd]. destruct (top_want g cmd e c); try discriminate.
  destruct c as [b l mx p h t]. cbn [k_st] in ST. subst t. unfold top_node. cbn [k_st k_bk k_lbk k_mix k_pm k_rec]. destruct IC as [IC|IC].
  - destruct (lit_content mx b l s false IC) as [->|(cdf & k & k' & E1 & E2 & STEP)]; [cbn [lift map_node map_outcome]; discriminate|].
    rewrite E1. cbn [lift map_node]. destruct ((0 <=? v) && (v <? 16)) eqn:NV; [|discriminate].
    destruct (k v) as [[[b2 l2] s2]|er|] eqn:KV; cbn [map_outcome]; try discriminate. destruct (STEP v b2 l2 s2 KV) as (-> & K2 & TR & IC2). cbn [fst snd].
    destruct (ENC fuel g cmd e _) as [[[c2 y] es2]|] eqn:EE; [|discriminate]. cbn [bind]. intros [= <- <- <-] W. pose proof (Forall_inv W) as (CD & NB). apply Forall_inv_tail in W.
    cbn [e_cdf e_val] in CD, NB. destruct (IH (K b l2 mx p h (TLit s2)) s2 c2 y es2 eq_refl IC2 EE W) as (l1 & s1 & LT & F1 & F2 & XN & -> & T2). cbn [k_bk k_lbk k_mix k_pm k_rec] in *.
    exists l1, s1. split; [apply (lt_step _ _ _ _ _ _ _ _ _ _ _ E2 CD NB K2 LT)|]. split; [exact F1|]. split; [cbn [filter on e_st]; f_equal; exact F2|]. split; [exact XN|]. split; [reflexivity|]. congruence.
  - unfold lit_node. rewrite IC. cbn [lift map_node map_outcome kset k_lbk k_mix k_pm k_rec]. destruct fuel as [|fuel]; [discriminate|]. cbn [enc_cmd].
    destruct (top_want g cmd e _); try discriminate. unfold top_node. cbn [k_st k_bk k_lbk k_mix k_pm k_rec rpop lz_replayer replayableb meaning1].
    intros [= <- <- <-] _. exists l, (sethe s false). split; [apply lt_done; exact IC|]. split; [reflexivity|]. split; [reflexivity|]. split; [discriminate|]. split; reflexivity.
Qed.

(** [c] to [c'] with [es], for both threads *)
Definition cont (c c' : codec (list Z)) (es : list ev) : Prop :=
  exists n ow,
    (forall m ces outs, wtr m (wview c') ces outs -> wtr (n + m) (wview c) (filter (on CMD) es ++ ces) (ow ++ outs)) /\
    (forall outs les hf, (forall l, eq8 l (k_lbk c') -> mtr l (k_mix c') (k_rec c') outs les hf) ->
       forall l, eq8 l (k_lbk c) -> mtr l (k_mix c) (k_rec c) (ow ++ outs) (filter (on LIT) es ++ les) hf).
Definition cok (c : codec (list Z)) : Prop := has_speeds (k_pm c) = true /\ traits (k_lbk c) = k_mix c /\ cstate (k_st c) /\ last_8 (k_lbk c) = rlast8 RR (k_rec c).
Lemma cont_keep c c1 c' es : keeps c c1 -> cok c -> (forall m ces outs, wtr m (wview c1) ces outs -> wtr (S m) (wview c) ces outs) -> cont c1 c' es -> cont c c' es.
Proof.
  intros (K1 & K2 & K3 & _) _ W (n & ow & A & B). exists (S n), ow. rewrite K1, K2, K3 in B. split; [|exact B].
  intros m ces outs X. apply W, A, X.
Qed.
Lemma keeps_cok c c1 : keeps c c1 -> cok c -> cok c1.
Proof. intros (K1 & K2 & K3 & K4 & K5) (A & B & C & E). unfold cok. rewrite K1, K2, K3, K4. auto. Qed.
Lemma cmd_trace g cmd e : forall fuel c c' x es, cok c -> ENC fuel g cmd e c = Some (c', x, es) -> writable es ->
  cont c c' es /\ cok c' /\ k_st c' = match x with Some _ => TBegin | None => TEnd end.
Proof.
  induction fuel as [|fuel IH]; intros c c' x es OK EE W; [discriminate EE|].
  assert (HS : hstate (k_st c) -> cont c c' es /\ cok c' /\ k_st c' = match x with Some _ => TBegin | None => TEnd end).
  { intros H. pose proof (hstep RR c H) as V. cbn [enc_cmd] in EE. destruct (top_want g cmd e c); try discriminate EE.
    destruct (top_node RR wl D c) as [st d k|[c1|er|]|c1 y|]; cbn [viewed] in V; try discriminate EE; try contradiction V.
    - destruct V as (-> & k' & V & KK). destruct ((0 <=? v) && (v <? 16)); [|discriminate EE]. destruct (k v) as [c1|er|] eqn:KV; try discriminate EE.
      destruct (KK v c1 KV) as (KV' & KP). destruct (ENC fuel g cmd e c1) as [[[c2 y] es2]|] eqn:E2; [|discriminate EE]. cbn [bind] in EE. injection EE as <- <- <-.
      pose proof (Forall_inv W) as (CD & NB). apply Forall_inv_tail in W. destruct (IH c1 c2 y es2 (keeps_cok _ _ KP OK) E2 W) as ((n & ow & A & B) & O2 & S2).
      split; [|auto]. destruct KP as (K1 & K2 & K3 & _). rewrite K1, K2, K3 in B. exists (S n), ow. split; [|exact B].
      intros m ces outs X. cbn [filter on e_st app plus]. apply (wt_code _ (wview c) d k' v (wview c1)); [exact (proj1 OK)|exact V|exact CD|exact NB|exact KV'|]. apply A, X.
    - destruct V as (V & KP). destruct (IH c1 c' x es (keeps_cok _ _ KP OK) EE W) as (CT & O2 & S2). split; [|auto].
      apply (cont_keep c c1 c' es KP OK); [|exact CT]. intros m ces outs X. apply (wt_silent _ (wview c) (wview c1)); [exact (proj1 OK)|exact V|exact X]. }
  pose proof OK as (SP & TR & CS & L8). destruct c as [b l mx p h t]. cbn [k_st k_lbk k_mix k_pm k_rec] in SP, TR, CS, L8, HS.
  destruct t as [|s|s|s|s|s|s|u|cm|]; cbn [cstate] in CS.
  - apply HS. exact Logic.I.
  - destruct CS as [CS|(DA & CS)]; [apply HS; cbn [hstate]; destruct (l_sub s); auto; apply CS; exact Logic.I|]. clear HS.
    destruct (content_trace g cmd e (S fuel) (K b l mx p h (TLit s)) s c' x es eq_refl ltac:(left; rewrite CS; exact Logic.I) EE W) as (l1 & s1 & LT & F1 & F2 & XN & -> & T1). cbn [k_bk k_lbk k_mix k_pm k_rec] in *.
    destruct s as [dt ln he su]. cbn [l_data l_sub] in DA, CS. subst dt su. cbn [sethe l_data l_len l_sub l_high_entropy] in LT.
    split; [|split; [unfold cok; cbn [k_pm k_lbk k_mix k_st k_rec last_8 set_last_8 cstate]; split; [exact SP|]; split; [unfold traits in *; cbn [wt_low wt_high set_last_8]; congruence|]; auto|destruct x; [reflexivity|contradiction (XN eq_refl)]]].
    exists 2%nat, [Literal (repeat 0 (Z.to_nat ln)) he]. split.
    + intros m ces outs X. rewrite F1. cbn [app plus]. apply (wt_silent _ _ (kset (wview (K b l mx p h TBegin)) b (TPop (Literal (repeat 0 (Z.to_nat ln)) he)))); [exact SP|reflexivity|].
      apply wt_pop; [exact SP|reflexivity|]. exact X.
    + intros outs les hf X l0 E0. rewrite F2. cbn [app k_lbk k_mix k_rec] in *. apply (mt_lit _ _ _ _ _ _ es l1 s1).
      * rewrite (eq8_set _ _ _ E0), <- L8. destruct l. exact LT.
      * apply X. reflexivity.
  - apply HS. exact Logic.I.
  - apply HS. exact Logic.I.
  - destruct s as [| | |t stride]; try (apply HS; exact Logic.I). clear HS. cbn [enc_cmd] in EE. destruct (top_want g cmd e _); try discriminate EE.
    unfold top_node in EE. cbn [k_st k_bk k_lbk k_mix k_pm k_rec] in EE. injection EE as <- <- <-.
    split; [|split; [unfold cok; cbn; auto|reflexivity]]. exists 2%nat, [BlockSwitchLiteral t stride]. cbn [filter app plus k_lbk k_mix k_rec]. split.
    + intros m ces outs X. apply (wt_silent _ _ (kset (wview (K b l mx p h TBegin)) (obs_btype b 0 t) (TPop (BlockSwitchLiteral t stride)))); [exact SP|reflexivity|].
      apply wt_pop; [exact SP|reflexivity|]. exact X.
    + intros outs les hf X l0 E0. apply mt_bsl. pose proof (eq8_btype _ _ t E0) as E1. rewrite (eq8_traits _ _ E1).
      change (traits (set_btype_last l t)) with (traits l). rewrite TR. apply X. exact E1.
  - destruct s as [| | |t]; try (apply HS; exact Logic.I). clear HS. cbn [enc_cmd] in EE. destruct (top_want g cmd e _); try discriminate EE.
    unfold top_node in EE. cbn [k_st k_bk k_lbk k_mix k_pm k_rec kset] in EE. injection EE as <- <- <-.
    split; [|split; [unfold cok; cbn; auto|reflexivity]]. exists 1%nat, []. cbn [filter app plus k_lbk k_mix k_rec]. split; [|auto].
    intros m ces outs X. eapply wt_adv; [exact SP|intros []|reflexivity|]. exact X.
  - destruct s as [| | |t]; try (apply HS; exact Logic.I). clear HS. cbn [enc_cmd] in EE. destruct (top_want g cmd e _); try discriminate EE.
    unfold top_node in EE. cbn [k_st k_bk k_lbk k_mix k_pm k_rec kset] in EE. injection EE as <- <- <-.
    split; [|split; [unfold cok; cbn; auto|reflexivity]]. exists 1%nat, []. cbn [filter app plus k_lbk k_mix k_rec]. split; [|auto].
    intros m ces outs X. eapply wt_adv; [exact SP|intros []|reflexivity|]. exact X.
  - assert (UF : u = PmFully \/ hstate (TPm u)) by (destruct u; cbn; auto). destruct UF as [->|H]; [|apply HS; exact H]. clear HS. cbn [enc_cmd] in EE. destruct (top_want g cmd e _); try discriminate EE.
    unfold top_node in EE. cbn [k_st k_bk k_lbk k_mix k_pm k_rec] in EE. destruct (obs_prediction_mode l p) as [l2|er|] eqn:OB; try discriminate EE. injection EE as <- <- <-.
    split; [|split; [unfold cok; cbn [k_pm k_lbk k_mix k_st k_rec cstate]; split; [exact SP|]; split; [reflexivity|]; split; [exact Logic.I|]|reflexivity]].
    + exists 2%nat, [PredictionMode p]. cbn [filter app plus k_lbk k_mix k_rec]. split.
      * intros m ces outs X. apply (wt_silent _ _ (kset (wview (K b l mx p h TBegin)) b (TPop (PredictionMode p)))); [exact SP|reflexivity|].
        apply wt_pop; [exact SP|reflexivity|]. exact X.
      * intros outs les hf X l0 E0. destruct (eq8_pm _ _ _ _ E0 OB) as (l3 & OB3 & E3). apply (mt_pm _ _ _ _ l3 _ _ _ OB3). rewrite (eq8_traits _ _ E3). apply X. exact E3.
    + rewrite <- L8. revert OB. unfold obs_prediction_mode. destruct (negb _); [discriminate|]. repeat (destruct (speed_of_f8 _); [|discriminate]). intros [= <-]. reflexivity.
  - clear HS. cbn [enc_cmd] in EE. destruct (top_want g cmd e _); try discriminate EE. unfold top_node in EE. cbn [k_st k_bk k_lbk k_mix k_pm k_rec rpop lz_replayer] in EE.
    destruct (replayableb dict wlen cm) eqn:RB; try discriminate EE. injection EE as <- <- <-.
    split; [|split; [unfold cok; cbn [k_pm k_lbk k_mix k_st k_rec last_8 set_last_8 cstate]; auto|reflexivity]]. exists 1%nat, [cm]. cbn [filter app plus k_lbk k_mix k_rec]. split.
    + intros m ces outs X. apply wt_pop; [exact SP|reflexivity|]. exact X.
    + intros outs les hf X l0 E0. apply mt_move; [destruct cm; auto|exact RB|]. apply X. exact E0.
  - clear HS. cbn [enc_cmd] in EE. destruct (top_want g cmd e _); try discriminate EE. unfold top_node in EE. cbn [k_st] in EE. injection EE as <- <- <-.
    split; [|split; [exact OK|reflexivity]]. exists 0%nat, []. cbn [filter app plus]. auto.
Qed.
Lemma all_trace g fuel : forall cmds c c' xs es, cok c -> enc_all RR wl D fuel g cmds c = Some (c', xs, es) -> writable es ->
  exists n outs, wtr n (wview c) (filter (on CMD) es) outs /\ forall l, eq8 l (k_lbk c) -> mtr l (k_mix c) (k_rec c) outs (filter (on LIT) es) (k_rec c').
Proof.
  induction cmds as [|cmd cmds IH]; intros c c' xs es OK; cbn [enc_all].
  - destruct (ENC fuel g (Copy 1 0) true c) as [[[c1 x] es1]|] eqn:E; [|discriminate]. destruct x; [discriminate|]. intros [= <- <- <-] W.
    destruct (cmd_trace _ _ _ _ _ _ _ _ OK E W) as ((n & ow & A & B) & O2 & S2). exists n, ow. pose proof (A 0%nat [] [] (wt_end (wview c1) (proj1 O2) S2)) as A'.
    rewrite !app_nil_r, Nat.add_0_r in A'. split; [exact A'|]. intros l E8. pose proof (B [] [] (k_rec c1) (fun l _ => mt_nil l _ _) l E8) as B'. rewrite !app_nil_r in B'. exact B'.
  - destruct (ENC fuel g cmd false c) as [[[c1 x] es1]|] eqn:E; [|discriminate]. destruct x as [x|]; [|discriminate].
    destruct (enc_all RR wl D fuel g cmds c1) as [[[c2 ys] es2]|] eqn:E2; [|discriminate]. cbn [bind]. intros [= <- <- <-] W. apply Forall_app in W. destruct W as (W1 & W2).
    destruct (cmd_trace _ _ _ _ _ _ _ _ OK E W1) as ((n & ow & A & B) & O2 & S2). destruct (IH c1 c2 ys es2 O2 E2 W2) as (n2 & outs & WT & MT).
    exists (n + n2)%nat, (ow ++ outs). rewrite !filter_app. split; [apply A, WT|]. apply B, MT.
Qed.
End Traces.
