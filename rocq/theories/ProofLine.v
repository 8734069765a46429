(** C74: from the words of a command line to the settings of the codec. *)
From Coq Require Import String Ascii.
From Verif Require Import Prelude ModelMux ModelText SpecText ProofText ModelHeader ModelCmd ModelRecode ModelPriors ModelCodec ModelPm ModelTop ModelEnc ModelDec ModelRawEnc ModelThread ModelIo SpecIo ModelHybrid ModelTool SpecTool ProofTool ThmTool ModelToolHybrid ModelToolThread SpecCodec SpecHybrid.
From Verif Require Import ModelArgs SpecArgs ProofArgs ProofArgs2 ThmArgs ModelLine SpecLine.

(** the numbers that can be said *)
Definition ranged (a : arg) : Prop :=
  match a with AMixing n | ADepth n | ABuffer n => 0 <= n | AStride n => 1 <= n <= 8 | ASpeed _ s => 0 <= fst s /\ 0 <= snd s | _ => True end.
Lemma spelled_ranged a s : spelled a s -> ranged a.
Proof.
  intros S. destruct S as [c t C|a s I|a p max n d I N M|n d N B|place sp t P T].
  - exact I.
  - cbn [In] in I. repeat (destruct I as [X|I]; [apply pair_equal_spec in X; destruct X as (<- & _); exact Logic.I|]). destruct I.
  - assert (0 <= n) as NN by (destruct N as (_ & F & <-); apply value_nonneg, F).
    cbn [In] in I. repeat (destruct I as [X|I]; [apply pair_equal_spec in X; destruct X as (X & _); apply pair_equal_spec in X; destruct X as (<- & _); cbn [ranged]; first [exact Logic.I|exact NN]|]). destruct I.
  - exact B.
  - cbn [ranged]. destruct T as [I|(a & b & (_ & FA & EA) & (_ & FB & EB) & _)].
    + cbn [speed_words In] in I. repeat (destruct I as [X|I]; [apply pair_equal_spec in X; destruct X as (_ & <-); cbn [fst snd]; lia|]). destruct I.
    + rewrite <- EA, <- EB. split; apply value_nonneg; assumption.
Qed.
Lemma all_ranged args strs : Forall2 spelled args strs -> Forall ranged args.
Proof. induction 1 as [|a s args strs S _ IH]; constructor; [exact (spelled_ranged a s S)|exact IH]. Qed.
Lemma last_all {A} (P : A -> Prop) (f : arg -> option A) d args : P d -> (forall a b, In a args -> f a = Some b -> P b) -> P (last_said f d args).
Proof.
  intros D H. induction args as [|a args IH] using rev_ind; [exact D|]. rewrite last_snoc. destruct (f a) as [b|] eqn:E.
  - apply (H a b); [apply in_or_app; right; left; reflexivity|exact E].
  - apply IH. intros a0 b I. apply H. apply in_or_app. now left.
Qed.
Lemma number_some f n args : number f args (Some n) = Some (last_said f n args).
Proof. unfold number. induction args as [|a args IH] using rev_ind; [reflexivity|]. rewrite !last_snoc, IH. destruct (f a); reflexivity. Qed.
Lemma number_none f args : or_zero (number f args None) = last_said f 0 args.
Proof. unfold number. induction args as [|a args IH] using rev_ind; [reflexivity|]. rewrite !last_snoc. destruct (f a); [reflexivity|exact IH]. Qed.
Lemma stride_range args : Forall ranged args -> 0 <= stride_number (stride_said args) <= 9.
Proof.
  induction args as [|a args IH]; intros F; [cbn; lia|]. apply Forall_cons_iff in F. destruct F as (R & F). specialize (IH F).
  destruct a; cbn [stride_said stride_number ranged] in *; try exact IH; try lia. destruct (stride_said args); cbn [stride_number] in *; lia.
Qed.
(** settings the format can carry *)
Lemma line_cfg_ok args strs ns p : Forall2 spelled args strs -> as_said args ns p -> bearable args -> cfg_ok (line_cfg (p_opts p)) /\ or_zero (o_mixing (p_opts p)) < 15.
Proof.
  intros F AS (BM & BD & BS). pose proof (all_ranged args strs F) as R.
  destruct AS as (_ & _ & _ & _ & _ & _ & _ & _ & AS). cbv zeta in AS. destruct AS as (_ & _ & MI & _ & DE & ST & _ & _ & _ & _ & _ & _ & _ & _ & _ & NO & AT & AL).
  rewrite number_some in MI. assert (ED : or_zero (o_depth (p_opts p)) = last_said (fun a => match a with ADepth n => Some n | _ => None end) 0 args) by (rewrite DE; apply number_none).
  assert (M0 : 0 <= last_said (fun a => match a with AMixing n => Some n | _ => None end) 1 args).
  { apply last_all; [lia|]. intros a b I E. rewrite Forall_forall in R. specialize (R a I). destruct a; try discriminate. cbn [ranged] in R. congruence. }
  assert (D0 : 0 <= last_said (fun a => match a with ADepth n => Some n | _ => None end) 0 args).
  { apply last_all; [lia|]. intros a b I E. rewrite Forall_forall in R. specialize (R a I). destruct a; try discriminate. cbn [ranged] in R. congruence. }
  assert (EM : or_zero (o_mixing (p_opts p)) = last_said (fun a => match a with AMixing n => Some n | _ => None end) 1 args) by (rewrite MI; reflexivity).
  split; [|lia]. unfold cfg_ok, line_cfg, cfg_new. cbn [want_depth want_stride want_mixing want_adapt]. rewrite ED, EM. unfold nibble.
  split; [lia|]. split; [rewrite ST; pose proof (stride_range (rev args) (Forall_rev R)); lia|]. split; [destruct (_ && _); lia|].
  destruct (o_adapt (p_opts p)) as [l|] eqn:EA; [|exact I]. destruct (AL l eq_refl) as (L & FA). split; [|unfold zlen; rewrite L; reflexivity].
  refine (Forall_impl _ _ FA). intros (inc, lim) (place & IN). rewrite Forall_forall in R. specialize (R _ IN). cbn [ranged fst snd] in R. destruct (BS place inc lim IN) as (B1 & B2). split; cbn [fst snd]; [lia|]. destruct B2 as [B2|B2]; [left; lia|right; exact B2].
Qed.
Lemma buffer_pos args strs : Forall2 spelled args strs -> 0 <= buffer_said args.
Proof.
  intros F. pose proof (all_ranged args strs F) as R. unfold buffer_said. apply last_all; [lia|]. intros a b I E. rewrite Forall_forall in R. specialize (R a I). destruct a; try discriminate. cbn [ranged] in R. congruence.
Qed.
