(** Common definitions: bytes, little-endian words, option monad. *)
From Coq Require Export ZArith List Lia Bool.
From Coq Require Export ZifyBool ZifyNat ZifyN.
Export ListNotations.
Global Open Scope Z_scope.
Ltac Zify.zify_post_hook ::= Z.div_mod_to_equations.

Global Arguments Z.add : simpl never.
Global Arguments Z.mul : simpl never.
Global Arguments Z.sub : simpl never.
Global Arguments Z.opp : simpl never.
Global Arguments Z.pow : simpl never.
Global Arguments Z.div : simpl never.
Global Arguments Z.modulo : simpl never.
Global Arguments Z.of_nat : simpl never.
Global Arguments Z.to_nat : simpl never.
Global Arguments Z.shiftl : simpl never.
Global Arguments Z.shiftr : simpl never.
Global Arguments Z.land : simpl never.
Global Arguments Z.lor : simpl never.
Global Arguments Z.ltb : simpl never.
Global Arguments Z.leb : simpl never.
Global Arguments Z.eqb : simpl never.
Global Arguments Z.max : simpl never.
Global Arguments Z.min : simpl never.

(** Sequencing for computations that can panic ([None] = Rust panic). *)
Definition bind {A B} (x : option A) (f : A -> option B) : option B :=
  match x with Some a => f a | None => None end.
Notation "'let?' x ':=' e 'in' f" :=
  (bind e (fun x => f)) (at level 200, x name, e at level 100, f at level 200).
Notation "'let?' ' p ':=' e 'in' f" :=
  (bind e (fun p => f)) (at level 200, p pattern, e at level 100, f at level 200).
(** Rust [assert!]. *)
Definition assert {A} (b : bool) (k : option A) : option A :=
  if b then k else None.

Definition byte (b : Z) : Prop := 0 <= b < 256.
Definition bytes (l : list Z) : Prop := Forall byte l.
Definition nibble (n : Z) : Prop := 0 <= n < 16.

(** [le n x]: the [n] little-endian bytes of [x]. *)
Fixpoint le (n : nat) (x : Z) : list Z :=
  match n with
  | O => []
  | S n => x mod 256 :: le n (x / 256)
  end.
(** Value of a little-endian byte string. *)
Fixpoint unle (l : list Z) : Z :=
  match l with
  | [] => 0
  | b :: l => b + 256 * unle l
  end.

Lemma le_length n x : length (le n x) = n.
Proof. revert x; induction n; cbn; auto. Qed.

Lemma le_bytes n x : bytes (le n x).
Proof.
  revert x; induction n; cbn; constructor; auto.
  - unfold byte; lia.
  - apply IHn.
Qed.

Lemma unle_le n x : 0 <= x < 256 ^ Z.of_nat n -> unle (le n x) = x.
Proof.
  revert x; induction n as [|n IH]; intros x Hx.
  - change (256 ^ Z.of_nat 0) with 1 in Hx. cbn. lia.
  - cbn [le unle]. rewrite IH.
    + lia.
    + rewrite Nat2Z.inj_succ, Z.pow_succ_r in Hx by lia. lia.
Qed.

Lemma unle_le_mod n x : unle (le n x) = x mod 256 ^ Z.of_nat n.
Proof.
  revert x; induction n as [|n IH]; intros x.
  - cbn [le unle]. change (256 ^ Z.of_nat 0) with 1. now rewrite Z.mod_1_r.
  - cbn [le unle]. rewrite IH, Nat2Z.inj_succ, Z.pow_succ_r by lia.
    rewrite Z.rem_mul_r by lia. reflexivity.
Qed.

Lemma unle_bound l : bytes l -> 0 <= unle l < 256 ^ Z.of_nat (length l).
Proof.
  induction 1 as [|b l Hb Hl IH]; cbn [unle length].
  - change (256 ^ Z.of_nat 0) with 1. lia.
  - rewrite Nat2Z.inj_succ, Z.pow_succ_r by lia. unfold byte in Hb. lia.
Qed.

Lemma le_unle l : bytes l -> le (length l) (unle l) = l.
Proof.
  induction 1 as [|b l Hb Hl IH]; cbn [unle length le]; auto.
  unfold byte in Hb.
  replace ((b + 256 * unle l) mod 256) with b by lia.
  replace ((b + 256 * unle l) / 256) with (unle l) by lia.
  now rewrite IH.
Qed.

Lemma unle_app l1 l2 :
  unle (l1 ++ l2) = unle l1 + 256 ^ Z.of_nat (length l1) * unle l2.
Proof.
  induction l1 as [|b l IH]; cbn [unle length app].
  - change (256 ^ Z.of_nat 0) with 1. lia.
  - rewrite IH, Nat2Z.inj_succ, Z.pow_succ_r by lia. lia.
Qed.

(** Disjoint [lor] is addition. *)
Lemma lor_shift_add x y k :
  0 <= k -> 0 <= x < 2 ^ k -> 0 <= y -> Z.lor x (Z.shiftl y k) = x + y * 2 ^ k.
Proof.
  intros Hk Hx Hy.
  rewrite Z.shiftl_mul_pow2 by lia.
  rewrite Z.add_nocarry_lxor, <- Z.lxor_lor; auto.
  - apply Z.bits_inj'; intros n Hn.
    rewrite Z.land_spec, Z.bits_0.
    destruct (Z.ltb_spec n k).
    + rewrite Z.mul_pow2_bits_low by lia. apply andb_false_r.
    + destruct (Z.eq_dec x 0) as [->|].
      * now rewrite Z.bits_0.
      * rewrite (Z.bits_above_log2 x n); auto; try lia.
        apply Z.log2_lt_pow2; try lia.
        apply Z.lt_le_trans with (2 ^ k); try lia.
        apply Z.pow_le_mono_r; lia.
  - apply Z.bits_inj'; intros n Hn.
    rewrite Z.land_spec, Z.bits_0.
    destruct (Z.ltb_spec n k).
    + rewrite Z.mul_pow2_bits_low by lia. apply andb_false_r.
    + destruct (Z.eq_dec x 0) as [->|].
      * now rewrite Z.bits_0.
      * rewrite (Z.bits_above_log2 x n); auto; try lia.
        apply Z.log2_lt_pow2; try lia.
        apply Z.lt_le_trans with (2 ^ k); try lia.
        apply Z.pow_le_mono_r; lia.
Qed.

Lemma land_mask x k : 0 <= k -> Z.land x (2 ^ k - 1) = x mod 2 ^ k.
Proof. intros. rewrite <- Z.land_ones by lia. f_equal. rewrite Z.ones_equiv. lia. Qed.
