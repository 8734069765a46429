(** List facts missing from the standard library. *)
From Verif Require Import Prelude.

Lemma skipn_skipn {A} (l : list A) : forall a b, skipn a (skipn b l) = skipn (b + a) l.
Proof.
  induction l as [|x l IH]; intros a b; [now rewrite !skipn_nil|].
  destruct b; cbn [skipn Nat.add]; [reflexivity|apply IH].
Qed.
Lemma skipn_firstn_app {A} (l : list A) p a b :
  firstn a (skipn p l) ++ firstn b (skipn (p + a) l) = firstn (a + b) (skipn p l).
Proof.
  rewrite <- (firstn_skipn a (skipn p l)) at 2. rewrite firstn_app, firstn_firstn.
  replace (Nat.min (a + b) a) with a by lia. f_equal.
  rewrite skipn_skipn.
  destruct (Nat.le_gt_cases a (length (skipn p l))) as [H|H].
  - rewrite firstn_length. replace (Nat.min a (length (skipn p l))) with a by lia. f_equal. lia.
  - rewrite skipn_all2; [rewrite !firstn_nil; reflexivity|]. rewrite skipn_length in H. lia.
Qed.
Lemma bytes_firstn n l : bytes l -> bytes (firstn n l).
Proof. intros H. rewrite <- (firstn_skipn n l) in H. apply Forall_app in H. tauto. Qed.
Lemma bytes_skipn n l : bytes l -> bytes (skipn n l).
Proof. intros H. rewrite <- (firstn_skipn n l) in H. apply Forall_app in H. tauto. Qed.
Lemma bytes_app l1 l2 : bytes l1 -> bytes l2 -> bytes (l1 ++ l2).
Proof. intros. apply Forall_app. auto. Qed.
Lemma nth_firstn_lt {A} (l : list A) d : forall n i, (i < n)%nat -> nth i (firstn n l) d = nth i l d.
Proof.
  induction l as [|x l IH]; intros [|n] [|i] H; cbn [firstn nth]; auto; try lia. apply IH. lia.
Qed.
Lemma nth_skipn {A} (l : list A) d : forall n i, nth i (skipn n l) d = nth (n + i) l d.
Proof.
  induction l as [|x l IH]; intros [|n] i; cbn [skipn nth Nat.add]; auto. destruct i; auto.
Qed.
