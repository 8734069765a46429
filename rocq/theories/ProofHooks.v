(** C72: the accounts of the two heaps. *)
From Verif Require Import Prelude ModelHooks SpecHooks.
From Coq Require Import Permutation.

Lemma without_in x l : In x l -> exists l', without x l = Some l' /\ Permutation l (x :: l').
Proof.
  induction l as [|y l IH]; intros H; [destruct H|]. cbn [without]. destruct (piece_eq x y) as [->|NE]; [exists l; split; [reflexivity|apply Permutation_refl]|].
  destruct H as [->|H]; [now elim NE|]. destruct (IH H) as (l' & E & P). rewrite E. exists (y :: l'). split; [reflexivity|].
  apply (Permutation_trans (perm_skip y P)). apply perm_swap.
Qed.
Lemma without_perm x l m : Permutation l (x :: m) -> exists l', without x l = Some l' /\ Permutation l' m.
Proof.
  intros P. destruct (without_in x l) as (l' & E & P2). { apply (Permutation_in x (Permutation_sym P)). now left. }
  exists l'. split; [exact E|]. apply (Permutation_cons_inv (a := x)). exact (Permutation_trans (Permutation_sym P2) P).
Qed.
Lemma out_app : forall a l b, out l (a ++ b) = match out l a with Some l => out l b | None => None end.
Proof. induction a as [|[o n p|o p|n p|p n] a IH]; intros l b; cbn [app out]; try apply IH; [reflexivity| |]; destruct (without _ _); auto. Qed.
Lemma take_perm {A} i (l : list A) x l' : take i l = Some (x, l') -> Permutation l (x :: l').
Proof.
  unfold take. destruct (nth_error l i) as [y|] eqn:E; [|discriminate]. intros H. assert (x = y /\ l' = firstn i l ++ skipn (S i) l) as (-> & ->) by (split; congruence).
  clear H. revert i E. induction l as [|z l IH]; intros [|i] E; cbn [nth_error firstn skipn app] in *; try discriminate.
  - assert (y = z) as -> by congruence. apply Permutation_refl.
  - apply (Permutation_trans (perm_skip z (IH i E))). apply perm_swap.
Qed.

Section Hooks.
Context (h : hooks).
(** what a live block stands for in the accounts *)
Definition ent (b : block) : list piece :=
  if h_alloc h then [FromCaller (h_opaque h) (b_ptr b)] else if b_len b * b_elem b =? 0 then [] else [FromRust (b_ptr b) (b_len b * b_elem b)].
Definition sized (b : block) : Prop := 0 <= b_len b /\ 0 < b_elem b.
Definition live (s : hstate) : list piece := flat_map ent (hs_cells s) ++ flat_map ent (hs_bufs s).
Definition fine (s : hstate) : Prop := Forall sized (hs_cells s) /\ Forall sized (hs_bufs s).
Definition full (b : block) : Prop := 0 < b_len b.
Lemma zero_len b : sized b -> b_len b = 0 -> b_len b * b_elem b = 0.
Proof. intros _ ->. reflexivity. Qed.
Lemma nonzero_len b : sized b -> b_len b <> 0 -> b_len b * b_elem b <> 0.
Proof. intros (A & B) N. nia. Qed.
(** one block leaves *)
Lemma cell_leaves b l m : sized b -> Permutation l (ent b ++ m) ->
  exists l' r, out l (free_cell h b) = Some l' /\ Permutation l' (r ++ m) /\ (full b -> (h_alloc h = true -> h_free h = true) -> r = []).
Proof.
  intros S P. unfold free_cell, ent in *. destruct (Z.eqb_spec (b_len b) 0) as [Z0|NZ].
  - destruct (h_alloc h).
    + exists l, [FromCaller (h_opaque h) (b_ptr b)]. split; [reflexivity|]. split; [exact P|]. unfold full. lia.
    + rewrite (zero_len b S Z0) in P. change (0 =? 0) with true in P. cbv iota in P. exists l, []. split; [reflexivity|]. split; [exact P|reflexivity].
  - destruct (h_alloc h).
    + destruct (h_free h).
      * destruct (without_perm _ _ _ P) as (l' & E & P'). exists l', []. cbn [out]. rewrite E. split; [reflexivity|]. split; [exact P'|reflexivity].
      * exists l, [FromCaller (h_opaque h) (b_ptr b)]. split; [reflexivity|]. split; [exact P|]. intros _ X. discriminate (X eq_refl).
    + pose proof (nonzero_len b S NZ) as NP. unfold std_free. destruct (Z.eqb_spec (b_len b * b_elem b) 0); [lia|].
      destruct (without_perm _ _ _ P) as (l' & E & P'). exists l', []. cbn [out]. rewrite E. split; [reflexivity|]. split; [exact P'|reflexivity].
Qed.
Lemma buf_leaves b l m : paired h -> Permutation l (ent b ++ m) -> exists l', out l (user_free h b) = Some l' /\ Permutation l' m.
Proof.
  intros PA P. unfold user_free, ent in *. rewrite <- PA. destruct (h_alloc h).
  - destruct (without_perm _ _ _ P) as (l' & E & P'). exists l'. cbn [out]. rewrite E. split; [reflexivity|exact P'].
  - unfold std_free. destruct (_ =? 0); [exists l; split; [reflexivity|exact P]|].
    destruct (without_perm _ _ _ P) as (l' & E & P'). exists l'. cbn [out]. rewrite E. split; [reflexivity|exact P'].
Qed.
Lemma block_comes f size elem p b t l : (f = alloc_cell \/ f = user_malloc) -> f h size elem p = Some (b, t) -> b = BL p size elem /\ exists l', out l t = Some l' /\ Permutation l' (ent b ++ l).
Proof.
  intros F. assert (E : f h size elem p = if h_alloc h then Some (BL p size elem, [CAlloc (h_opaque h) (product size elem) p]) else if vec_fits (size * elem) then Some (BL p size elem, std_alloc (size * elem) p) else None) by (destruct F as [-> | ->]; reflexivity).
  rewrite E. clear E F. unfold ent. destruct (h_alloc h).
  - intros E. assert (b = BL p size elem /\ t = [CAlloc (h_opaque h) (product size elem) p]) as (-> & ->) by (split; congruence). split; [reflexivity|]. eexists. split; [reflexivity|apply Permutation_refl].
  - destruct (vec_fits _); [|discriminate]. intros E. assert (b = BL p size elem /\ t = std_alloc (size * elem) p) as (-> & ->) by (split; congruence). split; [reflexivity|].
    cbn [b_len b_elem b_ptr]. unfold std_alloc. destruct (_ =? 0); eexists; (split; [reflexivity|apply Permutation_refl]).
Qed.
Lemma flat_map_perm (l l' : list block) : Permutation l l' -> Permutation (flat_map ent l) (flat_map ent l').
Proof. apply Permutation_flat_map. Qed.
Definition allowed (os : list hop) : Prop := paired h \/ Forall internal os.
Lemma hstep_accounts s o s' t l r : paired h \/ internal o -> sane_size o -> fine s -> hstep h s o = Some (s', t) -> Permutation l (live s ++ r) ->
  fine s' /\ exists l' r', out l t = Some l' /\ Permutation l' (live s' ++ r' ++ r) /\
    (positive o -> Forall full (hs_cells s) -> (h_alloc h = true -> h_free h = true) -> r' = [] /\ Forall full (hs_cells s')).
Proof.
  intros AL SS (FC & FB) E P. unfold live in *. destruct o as [size elem p|i|i|n elem p|i]; cbn [hstep] in E.
  - destruct (alloc_cell h size elem p) as [(b, t1)|] eqn:EA; cbn [bind] in E; [|discriminate].
    assert (s' = HS (b :: hs_cells s) (hs_bufs s) /\ t = t1) as (-> & ->) by (split; congruence).
    destruct (block_comes alloc_cell size elem p b t1 l (or_introl eq_refl) EA) as (-> & l' & O & P'). cbn [sane_size] in SS. cbn [hs_cells hs_bufs flat_map].
    split; [split; [apply Forall_cons; [split; apply SS|exact FC]|exact FB]|]. exists l', []. split; [exact O|]. split.
    + rewrite <- !app_assoc in *. apply (Permutation_trans P'). apply Permutation_app_head. exact P.
    + cbn [positive]. intros (PS & _) FU _. split; [reflexivity|]. apply Forall_cons; [exact PS|exact FU].
  - destruct (take i (hs_cells s)) as [(b, m)|] eqn:TK; cbn [bind] in E; [|discriminate]. apply take_perm in TK.
    assert (s' = HS m (hs_bufs s) /\ t = free_cell h b) as (-> & ->) by (split; congruence). cbn [hs_cells hs_bufs].
    pose proof (Permutation_Forall TK FC) as FM. apply Forall_cons_iff in FM. destruct FM as (SB & FM).
    split; [split; [exact FM|exact FB]|].
    assert (P1 : Permutation l (ent b ++ (flat_map ent m ++ flat_map ent (hs_bufs s)) ++ r)).
    { apply (Permutation_trans P). rewrite !app_assoc. apply Permutation_app_tail. apply Permutation_app_tail. exact (flat_map_perm _ _ TK). }
    destruct (cell_leaves b l _ SB P1) as (l' & q & O & P' & FR). exists l', q. split; [exact O|]. split.
    + apply (Permutation_trans P'). rewrite !app_assoc. apply Permutation_app_tail. rewrite <- (app_assoc q). apply Permutation_app_comm.
    + intros _ FU HF. pose proof (Permutation_Forall TK FU) as FU'. apply Forall_cons_iff in FU'. destruct FU' as (F1 & F2). split; [exact (FR F1 HF)|exact F2].
  - destruct (take i (hs_cells s)) as [(b, m)|] eqn:TK; cbn [bind] in E; [|discriminate]. apply take_perm in TK.
    assert (s' = HS m (hs_bufs s) /\ t = drop_block b) as (-> & ->) by (split; congruence). cbn [hs_cells hs_bufs].
    pose proof (Permutation_Forall TK FC) as FM. apply Forall_cons_iff in FM. destruct FM as (SB & FM).
    split; [split; [exact FM|exact FB]|]. exists l, (ent b). split; [reflexivity|]. split; [|intros []].
    apply (Permutation_trans P). rewrite !app_assoc. apply Permutation_app_tail.
    apply (Permutation_trans (l' := ent b ++ (flat_map ent m ++ flat_map ent (hs_bufs s)))); [|apply Permutation_app_comm].
    rewrite app_assoc. apply Permutation_app_tail. exact (flat_map_perm _ _ TK).
  - destruct (user_malloc h n elem p) as [(b, t1)|] eqn:EA; cbn [bind] in E; [|discriminate].
    assert (s' = HS (hs_cells s) (b :: hs_bufs s) /\ t = t1) as (-> & ->) by (split; congruence).
    destruct (block_comes user_malloc n elem p b t1 l (or_intror eq_refl) EA) as (-> & l' & O & P'). cbn [sane_size] in SS. cbn [hs_cells hs_bufs flat_map].
    split; [split; [exact FC|apply Forall_cons; [split; apply SS|exact FB]]|]. exists l', []. split; [exact O|]. split.
    + cbn [app]. apply (Permutation_trans P'). apply (Permutation_trans (Permutation_app_head _ P)). rewrite !app_assoc. apply Permutation_app_tail. apply Permutation_app_tail. apply Permutation_app_comm.
    + intros _ FU _. split; [reflexivity|exact FU].
  - destruct AL as [PA|[]]. destruct (take i (hs_bufs s)) as [(b, m)|] eqn:TK; cbn [bind] in E; [|discriminate]. apply take_perm in TK.
    assert (s' = HS (hs_cells s) m /\ t = user_free h b) as (-> & ->) by (split; congruence). cbn [hs_cells hs_bufs].
    pose proof (Permutation_Forall TK FB) as FM. apply Forall_cons_iff in FM. destruct FM as (SB & FM).
    split; [split; [exact FC|exact FM]|].
    assert (P1 : Permutation l (ent b ++ (flat_map ent (hs_cells s) ++ flat_map ent m) ++ r)).
    { apply (Permutation_trans P). rewrite !app_assoc. apply Permutation_app_tail.
      apply (Permutation_trans (l' := flat_map ent (hs_cells s) ++ ent b ++ flat_map ent m)); [apply Permutation_app_head; exact (flat_map_perm _ _ TK)|].
      rewrite !app_assoc. apply Permutation_app_tail. apply Permutation_app_comm. }
    destruct (buf_leaves b l _ PA P1) as (l' & O & P'). exists l', []. split; [exact O|]. split; [exact P'|]. intros _ FU _. split; [reflexivity|exact FU].
Qed.
Lemma hrun_accounts : forall os s s' t l r, allowed os -> Forall sane_size os -> fine s -> hrun h s os = Some (s', t) -> Permutation l (live s ++ r) ->
  fine s' /\ exists l' r', out l t = Some l' /\ Permutation l' (live s' ++ r' ++ r) /\
    (Forall positive os -> Forall full (hs_cells s) -> (h_alloc h = true -> h_free h = true) -> r' = [] /\ Forall full (hs_cells s')).
Proof.
  induction os as [|o os IH]; intros s s' t l r AL SS F E P; cbn [hrun] in E.
  - assert (s' = s /\ t = []) as (-> & ->) by (split; congruence). split; [exact F|]. exists l, []. split; [reflexivity|]. split; [exact P|]. intros _ FU _. split; [reflexivity|exact FU].
  - destruct (hstep h s o) as [(s1, t1)|] eqn:E1; cbn [bind] in E; [|discriminate].
    destruct (hrun h s1 os) as [(s2, t2)|] eqn:E2; cbn [bind] in E; [|discriminate]. assert (s' = s2 /\ t = t1 ++ t2) as (-> & ->) by (split; congruence).
    apply Forall_cons_iff in SS. destruct SS as (S1 & S2).
    assert (A1 : paired h \/ internal o) by (destruct AL as [|A]; [now left|right; now apply Forall_inv in A]).
    assert (A2 : allowed os) by (destruct AL as [|A]; [now left|right; now apply Forall_inv_tail in A]).
    destruct (hstep_accounts s o s1 t1 l r A1 S1 F E1 P) as (F1 & l1 & r1 & O1 & P1 & G1).
    destruct (IH s1 s2 t2 l1 (r1 ++ r) A2 S2 F1 E2 P1) as (F2 & l2 & r2 & O2 & P2 & G2).
    split; [exact F2|]. exists l2, (r2 ++ r1). rewrite out_app, O1. split; [exact O2|]. split; [now rewrite <- app_assoc|].
    intros PO FU HF. apply Forall_cons_iff in PO. destruct PO as (PO1 & PO2). destruct (G1 PO1 FU HF) as (-> & FU1). destruct (G2 PO2 FU1 HF) as (-> & FU2). split; [reflexivity|exact FU2].
Qed.
Lemma give_back_accounts keep : forall cells l m, Forall sized cells -> Permutation l (flat_map ent cells ++ m) ->
  exists l' r, out l (give_back h (map (fun b => (b, keep b)) cells)) = Some l' /\ Permutation l' (r ++ m) /\
    (Forall full cells -> Forall (fun b => keep b = true) cells -> (h_alloc h = true -> h_free h = true) -> r = []).
Proof.
  induction cells as [|b cells IH]; intros l m SZ P; cbn [map flat_map] in *.
  - exists l, []. split; [reflexivity|]. split; [exact P|reflexivity].
  - apply Forall_cons_iff in SZ. destruct SZ as (S1 & S2). unfold give_back. cbn [map concat fst snd]. fold (give_back h (map (fun b => (b, keep b)) cells)). rewrite out_app. rewrite <- app_assoc in P.
    destruct (keep b) eqn:KB.
    + destruct (cell_leaves b l _ S1 P) as (l1 & r1 & O1 & P1 & G1). rewrite O1.
      assert (P1' : Permutation l1 (flat_map ent cells ++ r1 ++ m)). { apply (Permutation_trans P1). rewrite !app_assoc. apply Permutation_app_tail, Permutation_app_comm. }
      destruct (IH l1 (r1 ++ m) S2 P1') as (l2 & r2 & O2 & P2 & G2). exists l2, (r2 ++ r1). split; [exact O2|]. split; [now rewrite <- app_assoc|].
      intros FU KE HF. apply Forall_cons_iff in FU. apply Forall_cons_iff in KE. rewrite (G1 (proj1 FU) HF), (G2 (proj2 FU) (proj2 KE) HF). reflexivity.
    + cbn [drop_block out].
      assert (P1' : Permutation l (flat_map ent cells ++ ent b ++ m)). { apply (Permutation_trans P). rewrite !app_assoc. apply Permutation_app_tail, Permutation_app_comm. }
      destruct (IH l (ent b ++ m) S2 P1') as (l2 & r2 & O2 & P2 & G2). exists l2, (r2 ++ ent b). split; [exact O2|]. split; [now rewrite <- app_assoc|].
      intros _ KE _. apply Forall_inv in KE. congruence.
Qed.
Definition state_piece (size p : Z) : piece := if h_alloc h then FromCaller (h_opaque h) p else FromRust p size.
Lemma session_accounts size p os keep s t : allowed os -> Forall sane_size os -> hsession h size p os keep = Some (s, t) ->
  exists l r, out [] t = Some l /\ Permutation l (r ++ flat_map ent (hs_bufs s)) /\
    (Forall positive os -> (forall b, keep b = true) -> (h_alloc h = true -> h_free h = true) -> r = []).
Proof.
  intros AL SS. unfold hsession. destruct (hrun h (HS [] []) os) as [(s1, t1)|] eqn:E1; cbn [bind]; [|discriminate].
  intros E. match type of E with Some (_, ?y) = _ => assert (s = s1 /\ t = y) as (-> & ->) by (split; congruence) end. clear E.
  assert (ON : out [] (new_state h size p) = Some [state_piece size p]) by (unfold new_state, state_piece; destruct (h_alloc h); reflexivity). rewrite out_app, ON, out_app.
  destruct (hrun_accounts os (HS [] []) s1 t1 [state_piece size p] [state_piece size p] AL SS (conj (Forall_nil _) (Forall_nil _)) E1 (Permutation_refl _)) as ((FC & FB) & l1 & r1 & O1 & P1 & G1).
  rewrite O1. unfold live in P1.
  unfold free_state. set (cl := map (fun b => (b, keep b)) (hs_cells s1)). unfold state_piece in P1.
  assert (KA : (forall b, keep b = true) -> Forall (fun b => keep b = true) (hs_cells s1)) by (intros K; apply Forall_forall; intros b _; apply K).
  set (C := flat_map ent (hs_cells s1)) in *. set (B := flat_map ent (hs_bufs s1)) in *. destruct (h_alloc h) eqn:HA.
  - destruct (h_free h) eqn:HF.
    + assert (PW : Permutation l1 (FromCaller (h_opaque h) p :: C ++ r1 ++ B)).
      { apply (Permutation_trans P1). apply (Permutation_trans (l' := ((C ++ B) ++ r1) ++ [FromCaller (h_opaque h) p])); [rewrite <- !app_assoc; apply Permutation_refl|].
        apply (Permutation_trans (Permutation_app_comm _ _)). cbn [app]. apply perm_skip. rewrite <- app_assoc. apply Permutation_app_head. apply Permutation_app_comm. }
      destruct (without_perm _ _ _ PW) as (l2 & W & P2). cbn [out]. rewrite W.
      destruct (give_back_accounts keep (hs_cells s1) l2 (r1 ++ B) FC P2) as (l3 & r3 & O3 & P3 & G3). exists l3, (r3 ++ r1). split; [exact O3|]. split; [now rewrite <- app_assoc|].
      intros PO K _. destruct (G1 PO (Forall_nil _) ltac:(auto)) as (-> & FU). rewrite (G3 FU (KA K) ltac:(auto)). reflexivity.
    + cbn [out]. exists l1, (C ++ r1 ++ [FromCaller (h_opaque h) p]). split; [reflexivity|]. split.
      * apply (Permutation_trans P1). rewrite <- !app_assoc. apply Permutation_app_head. apply (Permutation_trans (Permutation_app_comm _ _)). rewrite <- !app_assoc. apply Permutation_refl.
      * intros _ _ X. discriminate (X eq_refl).
  - rewrite out_app.
    assert (PW : Permutation l1 (C ++ r1 ++ B ++ [FromRust p size])).
    { apply (Permutation_trans P1). rewrite <- !app_assoc. apply Permutation_app_head. rewrite !app_assoc. apply Permutation_app_tail. apply Permutation_app_comm. }
    destruct (give_back_accounts keep (hs_cells s1) l1 _ FC PW) as (l3 & r3 & O3 & P3 & G3). subst cl. rewrite O3.
    assert (PW2 : Permutation l3 (FromRust p size :: (r3 ++ r1) ++ B)).
    { apply (Permutation_trans P3). rewrite !app_assoc. apply (Permutation_trans (Permutation_app_comm _ _)). apply Permutation_refl. }
    destruct (without_perm _ _ _ PW2) as (l4 & W & P4). cbn [out]. rewrite W. exists l4, (r3 ++ r1). split; [reflexivity|]. split; [exact P4|].
    intros PO K _. destruct (G1 PO (Forall_nil _) ltac:(discriminate)) as (-> & FU). rewrite (G3 FU (KA K) ltac:(rewrite HA; discriminate)). reflexivity.
Qed.
End Hooks.
