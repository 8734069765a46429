(** Lemmas about list slices indexed by integers. *)
From Verif Require Import Prelude ProofList ModelMux.

Lemma zlen_nonneg {A} (l : list A) : 0 <= zlen l.
Proof. unfold zlen. lia. Qed.
Lemma zlen_nil {A} : zlen (@nil A) = 0.
Proof. reflexivity. Qed.
Lemma zlen_cons {A} (x : A) l : zlen (x :: l) = 1 + zlen l.
Proof. unfold zlen. cbn [length]. lia. Qed.
Lemma zlen_app {A} (l1 l2 : list A) : zlen (l1 ++ l2) = zlen l1 + zlen l2.
Proof. unfold zlen. rewrite app_length. lia. Qed.
Lemma zlen_0_nil {A} (l : list A) : zlen l = 0 -> l = [].
Proof. destruct l; auto. rewrite zlen_cons. pose proof (zlen_nonneg l). lia. Qed.
Lemma zlen_first {A} n (l : list A) : 0 <= n -> zlen (zfirst n l) = Z.min n (zlen l).
Proof. intros. unfold zlen, zfirst. rewrite firstn_length. lia. Qed.
Lemma zlen_skip {A} n (l : list A) : 0 <= n -> zlen (zskip n l) = Z.max 0 (zlen l - n).
Proof. intros. unfold zlen, zskip. rewrite skipn_length. lia. Qed.
Lemma zfirst_skip {A} n (l : list A) : zfirst n l ++ zskip n l = l.
Proof. apply firstn_skipn. Qed.
Lemma zfirst_0 {A} (l : list A) : zfirst 0 l = [].
Proof. reflexivity. Qed.
Lemma zskip_0 {A} (l : list A) : zskip 0 l = l.
Proof. reflexivity. Qed.
Lemma zfirst_nil {A} n : zfirst n (@nil A) = [].
Proof. apply firstn_nil. Qed.
Lemma zskip_nil {A} n : zskip n (@nil A) = [].
Proof. apply skipn_nil. Qed.
Lemma zfirst_all {A} n (l : list A) : zlen l <= n -> zfirst n l = l.
Proof. unfold zlen, zfirst. intros. apply firstn_all2. lia. Qed.
Lemma zskip_all {A} n (l : list A) : zlen l <= n -> zskip n l = [].
Proof. unfold zlen, zskip. intros. apply skipn_all2. lia. Qed.
Lemma zfirst_app_exact {A} n (l1 l2 : list A) : zlen l1 = n -> zfirst n (l1 ++ l2) = l1.
Proof.
  unfold zlen, zfirst. intros H. replace (Z.to_nat n) with (length l1) by lia.
  rewrite firstn_app, firstn_all, Nat.sub_diag, firstn_O. apply app_nil_r.
Qed.
Lemma zskip_app_exact {A} n (l1 l2 : list A) : zlen l1 = n -> zskip n (l1 ++ l2) = l2.
Proof.
  unfold zlen, zskip. intros H. replace (Z.to_nat n) with (length l1) by lia.
  rewrite skipn_app, skipn_all, Nat.sub_diag. reflexivity.
Qed.
Lemma zfirst_app_more {A} n (l1 l2 : list A) : zlen l1 <= n -> zfirst n (l1 ++ l2) = l1 ++ zfirst (n - zlen l1) l2.
Proof.
  unfold zlen, zfirst. intros H. rewrite firstn_app, firstn_all2 by lia. f_equal. f_equal. lia.
Qed.
Lemma zfirst_app_less {A} n (l1 l2 : list A) : n <= zlen l1 -> zfirst n (l1 ++ l2) = zfirst n l1.
Proof.
  unfold zlen, zfirst. intros H. rewrite firstn_app. replace (Z.to_nat n - length l1)%nat with 0%nat by lia.
  rewrite firstn_O. apply app_nil_r.
Qed.
Lemma zskip_app_more {A} n (l1 l2 : list A) : zlen l1 <= n -> zskip n (l1 ++ l2) = zskip (n - zlen l1) l2.
Proof.
  unfold zlen, zskip. intros H. rewrite skipn_app, skipn_all2 by lia. cbn [app]. f_equal. lia.
Qed.
Lemma zskip_app_less {A} n (l1 l2 : list A) : n <= zlen l1 -> zskip n (l1 ++ l2) = zskip n l1 ++ l2.
Proof.
  unfold zlen, zskip. intros H. rewrite skipn_app. replace (Z.to_nat n - length l1)%nat with 0%nat by lia. reflexivity.
Qed.
Lemma zskip_zskip {A} a b (l : list A) : 0 <= a -> 0 <= b -> zskip a (zskip b l) = zskip (b + a) l.
Proof. intros. unfold zskip. rewrite skipn_skipn. f_equal. lia. Qed.
Lemma zfirst_zfirst {A} a b (l : list A) : zfirst a (zfirst b l) = zfirst (Z.min a b) l.
Proof. unfold zfirst. rewrite firstn_firstn. f_equal. lia. Qed.
Lemma zskip_zfirst {A} a b (l : list A) : 0 <= a -> zskip a (zfirst b l) = zfirst (b - a) (zskip a l).
Proof.
  intros H. unfold zskip, zfirst. rewrite skipn_firstn_comm. f_equal. lia.
Qed.
Lemma zfirst_plus {A} a b (l : list A) : 0 <= a -> 0 <= b -> zfirst (a + b) l = zfirst a l ++ zfirst b (zskip a l).
Proof.
  intros. pose proof (skipn_firstn_app l 0 (Z.to_nat a) (Z.to_nat b)) as E. cbn [skipn Nat.add] in E.
  unfold zfirst, zskip. rewrite E. f_equal. lia.
Qed.

(** [put_at] *)
Lemma zlen_put mem off d : 0 <= off -> off + zlen d <= zlen mem -> zlen (put_at mem off d) = zlen mem.
Proof.
  intros. pose proof (zlen_nonneg d). unfold put_at. rewrite !zlen_app, zlen_first, zlen_skip by lia. lia.
Qed.
Lemma zskip_put mem off d : 0 <= off <= zlen mem -> zskip off (put_at mem off d) = d ++ zskip (off + zlen d) mem.
Proof. intros. unfold put_at. apply zskip_app_exact. rewrite zlen_first by lia. lia. Qed.
Lemma zskip_put_before mem off d r : 0 <= r <= off -> off <= zlen mem ->
  zskip r (put_at mem off d) = zfirst (off - r) (zskip r mem) ++ d ++ zskip (off + zlen d) mem.
Proof.
  intros. unfold put_at. rewrite zskip_app_less by (rewrite zlen_first by lia; lia).
  rewrite zskip_zfirst by lia. reflexivity.
Qed.
