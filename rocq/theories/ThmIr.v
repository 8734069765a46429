(** C41: the command optimiser. *)
From Verif Require Import Prelude ModelMux ModelCmd ModelRecode SpecLz ModelIr SpecIr ProofIr.

(** C41: for every dictionary, input, position and history, every list of
    commands that describes the input from there on, every boundary between the
    halves of the input, and whatever the cost model answers: the optimiser does
    not panic, and if it returns a list then that list has the same meaning,
    describes the same input, keeps every other command at the same place of the
    output, has no empty copies, and has no literal across the boundary unless the
    given list had one. *)
Theorem C41_ir_optimize_preserves : forall dict inp pos h b merge trial l,
  0 <= pos -> describes dict inp pos h l ->
  match ir_optimize b merge trial l with
  | IrOk l' =>
      ir_meaning dict inp h l' = ir_meaning dict inp h l /\
      describes dict inp pos h l' /\
      marks dict inp h l' 0 = marks dict inp h l 0 /\
      (forall d, ~ In (IOther (Copy d 0)) l') /\
      (unsplit b l -> unsplit b l')
  | IrErr => True
  | IrPanic => False
  end.
Proof.
  intros dict inp pos h b merge trial l P D. pose proof (describes_good dict inp l pos h P D) as G.
  assert (H := optimize_ok dict inp b merge trial l pos h P G).
  destruct (ir_optimize b merge trial l) as [l'| |]; [|exact I|exact H].
  destruct H as (E & U & F). destruct (E pos h P G) as (G' & M & K).
  split; [exact M|]. split; [apply good_describes; assumption|]. split; [apply K|]. split; [|exact U].
  intros d J. rewrite Forall_forall in F. specialize (F _ J). discriminate F.
Qed.

(** C41: an error is returned only when the cost model returned one. *)
Theorem C41_ir_optimize_succeeds : forall dict inp pos h b merge trial l,
  0 <= pos -> describes dict inp pos h l ->
  (forall i, merge i <> None) -> (forall i, trial i = true) ->
  exists l', ir_optimize b merge trial l = IrOk l'.
Proof.
  intros dict inp pos h b merge trial l P D Hm Ht. pose proof (describes_good dict inp l pos h P D) as G.
  assert (H := optimize_ok dict inp b merge trial l pos h P G).
  destruct (ir_optimize b merge trial l) as [l'| |] eqn:E; [eauto| |contradiction].
  exfalso. unfold ir_optimize in E. destruct l as [|c l]; [discriminate E|].
  assert (L : forall n l el i, ir_loop b merge trial n l el i <> IrErr).
  { induction n as [|n IH]; intros l0 el i; [discriminate|]. cbn [ir_loop].
    assert (S1 : ir_step b merge trial l0 el i <> IrErr).
    { unfold ir_step. specialize (Hm i). destruct (nth_error l0 el) as [[? ? ?|?]|], (nth_error l0 i) as [[? ? ?|[]]|];
        cbv zeta; rewrite ?Ht; destruct (merge i); try congruence;
        repeat match goal with |- context [if ?c then _ else _] => destruct c end; congruence. }
    destruct (ir_step b merge trial l0 el i) as [[l1 el1]| |]; [apply IH|congruence|discriminate]. }
  specialize (L (length (c :: l) - 1)%nat (c :: l) 0%nat 1%nat).
  destruct (ir_loop b merge trial (length (c :: l) - 1) (c :: l) 0 1) as [l1| |]; [|congruence|discriminate E].
  rewrite Ht in E. destruct (ir_compact (length l1) l1 0 0). discriminate E.
Qed.

(** "abcabcabxyz" at offset 2 of the input: the first copy is merged, the
    adjacent literals are merged, the block switch stays at position 8 *)
Definition ir_inp : list Z := [1; 2; 97; 98; 99; 97; 98; 99; 97; 98; 120; 121; 122].
Definition ir_list : list icmd :=
  [ILit 2 3 false; IOther (Copy 3 5); IOther (BlockSwitchLiteral 1 0); ILit 10 1 false; ILit 11 2 false].
Example C41_case_describes : describes (fun _ _ _ => None) ir_inp 2 [] ir_list.
Proof.
  apply good_describes; [lia|]. unfold ir_list. cbn [good]. cbv zeta.
  repeat match goal with |- _ /\ _ => split end; try exact I; try (vm_compute; congruence).
Qed.
Example C41_case : ir_optimize 100 (fun _ => Some true) (fun _ => true) ir_list
  = IrOk [ILit 2 8 false; IOther (BlockSwitchLiteral 1 0); ILit 10 3 false].
Proof. vm_compute. reflexivity. Qed.

Print Assumptions C41_ir_optimize_preserves.
Print Assumptions C41_ir_optimize_succeeds.
