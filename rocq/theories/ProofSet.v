(** C76: settings, step by step. *)
From Verif Require Import Prelude ModelMux ProofZlist ModelHeader ModelFfi SpecFfi ProofFfi ModelSet SpecSet.
From Verif Require ModelArgs SpecArgs.

Lemma in_bounds_ok o : choose_window o = in_bounds (default o 22).
Proof. unfold choose_window, in_bounds, default. destruct o as [w|]; [|reflexivity]. destruct (Z.ltb_spec w 10), (Z.ltb_spec 24 w); lia. Qed.
Lemma prior_ok m : force_mode m = prior_name m.
Proof.
  unfold force_mode, prior_name. destruct (Z.eqb_spec m 0) as [->|A]; [reflexivity|]. destruct (Z.eqb_spec m 1) as [->|B]; [reflexivity|]. destruct (Z.eqb_spec m 2) as [->|C]; [reflexivity|].
  destruct (m =? 3); destruct m as [|p|p]; try reflexivity; try congruence; destruct p as [p|p|]; try reflexivity; try congruence; destruct p; try reflexivity; congruence.
Qed.
(** what the options say *)
Definition speed_at (o : opts) (place : nat) : option (Z * Z) := option_map (fun l => nth place l (0, 0)) (o_literal_adaptation o).
Definition wish_of (o : opts) : wish :=
  WISH (default (o_window_size o) 22) (default (o_lgblock o) 18) (default (o_quality o) 10) (o_q9_5 o) (default (o_speed_quality o) 0) (default (o_stride_quality o) 0) (o_byte_score o) (o_bitmask o) (o_context_mode o) (speed_at o).
Lemma told_granted o : granted (wish_of o) (told o).
Proof.
  unfold granted, wish_of. cbn [w_window w_block w_quality w_95 w_speedq w_strideq w_score w_prior w_mode w_speed]. unfold speed_at, told. rewrite <- in_bounds_ok.
  destruct (o_context_mode o) as [m|]; [rewrite prior_ok|]; destruct (o_q9_5 o), (o_byte_score o) as [s|], (o_literal_adaptation o) as [a|]; cbn [app heard fold_left fst snd is option_map];
    (repeat (split; [reflexivity|])); intros place L; (destruct place as [|[|[|[|place]]]]; [..|exfalso; lia]); split; reflexivity.
Qed.
Lemma granted_eq w w' l : granted w l -> w_window w = w_window w' -> w_block w = w_block w' -> w_quality w = w_quality w' -> w_95 w = w_95 w' -> w_speedq w = w_speedq w' -> w_strideq w = w_strideq w' ->
  w_score w = w_score w' -> w_prior w = w_prior w' -> w_mode w = w_mode w' -> (forall place, (place < 4)%nat -> w_speed w place = w_speed w' place) -> granted w' l.
Proof.
  intros G E1 E2 E3 E4 E5 E6 E7 E8 E9 ES. unfold granted in *. rewrite <- E1, <- E2, <- E3, <- E4, <- E5, <- E6, <- E7, <- E8, <- E9. destruct G as (G1 & G2 & G3 & G4 & G5 & G6 & G7 & G8 & G9 & G10 & GS).
  repeat (split; [assumption|]). intros place L. rewrite <- (ES place L). apply GS, L.
Qed.

(** ** The C API *)
Lemma last_set_snoc sel l x : last_set sel (l ++ [x]) = if fst x =? sel then Some (snd x) else last_set sel l.
Proof. unfold last_set. rewrite fold_left_app. reflexivity. Qed.
Lemma set_all_snoc l x o : set_all (l ++ [x]) o = match set_option_match (set_all l o) (fst x) (snd x) with Some o => o | None => set_all l o end.
Proof. unfold set_all. rewrite fold_left_app. reflexivity. Qed.
(** one step, in twenty cases *)
Ltac each_selector R :=
  destruct (sel_cases _ R) as [E|[E|[E|[E|[E|[E|[E|[E|[E|[E|[E|[E|[E|[E|[E|[E|[E|[E|[E|E]]]]]]]]]]]]]]]]]]]; subst;
  match goal with |- context [set_option_match ?o ?n ?v] => unfold set_option_match;
    repeat match goal with |- context [n =? ?m] => let b := eval vm_compute in (n =? m) in change (n =? m) with b; cbv iota end end.
Ltac cases_of_value := 
  repeat match goal with
  | |- context [set_adaptation ?o ?k ?v] => unfold set_adaptation
  | |- context [if ?b then _ else _] => destruct b
  end.
Ltac one_field := intros o sel v (R & _) V; each_selector R; cases_of_value; reflexivity.
Lemma field {A} (f : opts -> A) sel (g : Z -> A) : 
  (forall o s v, valid_option s v -> 0 <= v < 2 ^ 32 -> f (match set_option_match o s v with Some o => o | None => o end) = if s =? sel then g v else f o) ->
  forall l, documented l -> f (set_all l opts_default) = match last_set sel l with Some v => g v | None => f opts_default end.
Proof.
  intros H. induction l as [|x l IH] using rev_ind; intros D; [reflexivity|]. apply Forall_app in D. destruct D as (D & DX). apply Forall_cons_iff in DX. destruct DX as ((VO & VR) & _).
  rewrite set_all_snoc, last_set_snoc, (H _ _ _ VO VR), (IH D). destruct (fst x =? sel); reflexivity.
Qed.
Lemma f_window l : documented l -> default (o_window_size (set_all l opts_default)) 22 = (let v := or_else (last_set 2 l) 22 in if v <? 2 ^ 31 then v else v - 2 ^ 32).
Proof. intros D. rewrite (field o_window_size 2 (fun v => Some (i32c v))) by (first [one_field|exact D]). destruct (last_set 2 l); reflexivity. Qed.
Lemma f_block l : documented l -> default (o_lgblock (set_all l opts_default)) 18 = or_else (last_set 3 l) 22.
Proof. intros D. rewrite (field o_lgblock 3 Some) by (first [one_field|exact D]). destruct (last_set 3 l); reflexivity. Qed.
Lemma f_quality l : documented l -> default (o_quality (set_all l opts_default)) 10 = or_else (last_set 1 l) 11 mod 65536.
Proof. intros D. rewrite (field o_quality 1 (fun v => Some (v mod 2 ^ 16))) by (first [one_field|exact D]). destruct (last_set 1 l); reflexivity. Qed.
Lemma f_95 l : documented l -> o_q9_5 (set_all l opts_default) = negb (or_else (last_set 18 l) 0 mod 256 =? 0).
Proof. intros D. rewrite (field o_q9_5 18 (fun v => negb (u8c v =? 0))) by (first [one_field|exact D]). destruct (last_set 18 l); reflexivity. Qed.
Lemma f_speedq l : documented l -> default (o_speed_quality (set_all l opts_default)) 0 = or_else (last_set 16 l) 0 mod 256.
Proof. intros D. rewrite (field o_speed_quality 16 (fun v => Some (u8c v))) by (first [one_field|exact D]). destruct (last_set 16 l); reflexivity. Qed.
Lemma f_strideq l : documented l -> default (o_stride_quality (set_all l opts_default)) 0 = or_else (last_set 10 l) 0 mod 256.
Proof. intros D. rewrite (field o_stride_quality 10 (fun v => Some (u8c v))) by (first [one_field|exact D]). destruct (last_set 10 l); reflexivity. Qed.
Lemma f_score l : documented l -> o_byte_score (set_all l opts_default) = last_set 15 l.
Proof. intros D. rewrite (field o_byte_score 15 Some) by (first [one_field|exact D]). destruct (last_set 15 l); reflexivity. Qed.
Lemma f_prior l : documented l -> o_bitmask (set_all l opts_default) = or_else (last_set 17 l) 1 mod 256.
Proof. intros D. rewrite (field o_bitmask 17 u8c) by (first [one_field|exact D]). destruct (last_set 17 l); reflexivity. Qed.
Lemma f_mode l : documented l -> o_context_mode (set_all l opts_default) = option_map (fun v => v mod 256) (last_set 19 l).
Proof. intros D. rewrite (field o_context_mode 19 (fun v => Some (u8c v))) by (first [one_field|exact D]). destruct (last_set 19 l); reflexivity. Qed.
Lemma f_mixing l : documented l -> default (o_mixing (set_all l opts_default)) 0 = or_else (last_set 4 l) 1 mod 256.
Proof. intros D. rewrite (field o_mixing 4 (fun v => Some (u8c v))) by (first [one_field|exact D]). destruct (last_set 4 l); reflexivity. Qed.
Lemma f_depth l : documented l -> default (o_prior_depth (set_all l opts_default)) 0 = or_else (last_set 11 l) 0 mod 256.
Proof. intros D. rewrite (field o_prior_depth 11 (fun v => Some (u8c v))) by (first [one_field|exact D]). destruct (last_set 11 l); reflexivity. Qed.
Lemma f_cmap l : documented l -> o_context_map (set_all l opts_default) = negb (or_else (last_set 7 l) 1 =? 0).
Proof.
  intros D. rewrite (field o_context_map 7 (fun v => negb (v =? 0))); [destruct (last_set 7 l); reflexivity| |exact D].
  intros o sel v (R & _ & _ & V7 & _) V. revert V7. each_selector R; intros V7; try (cases_of_value; reflexivity). assert (v = 0 \/ v = 1) as [->| ->] by lia; reflexivity.
Qed.
Lemma f_stride l : documented l -> o_stride (set_all l opts_default) = match last_set 9 l with Some v => Stride v | None => UseBrotliRec end.
Proof.
  intros D. rewrite (field o_stride 9 Stride); [reflexivity| |exact D].
  intros o sel v (R & _ & _ & _ & V9 & _) V. revert V9. each_selector R; intros V9; try (cases_of_value; reflexivity). assert ((0 <=? v) && (v <=? 8) = true) as -> by lia. reflexivity.
Qed.
(** the speeds *)
Definition is_speed (x : Z * Z) : bool := (fst x =? 8) || (fst x =? 12) || (fst x =? 13) || (fst x =? 14).
Definition place_of (sel : Z) : nat := if sel =? 8 then 3%nat else if sel =? 12 then 1%nat else if sel =? 13 then 2%nat else 0%nat.
Lemma speed_step o s v : valid_option s v -> 0 <= v < 2 ^ 32 ->
  o_literal_adaptation (match set_option_match o s v with Some o => o | None => o end) =
  if is_speed (s, v) then Some (let p := nth (Z.to_nat v) PALETTE (0, 0) in match o_literal_adaptation o with None => [p; p; p; p] | Some a => firstn (place_of s) a ++ p :: skipn (S (place_of s)) a end) else o_literal_adaptation o.
Proof.
  intros (R & _ & _ & _ & _ & VA) V. revert VA. each_selector R; intros VA; (match goal with |- context [is_speed (?n, v)] => let b := eval vm_compute in (is_speed (n, v)) in change (is_speed (n, v)) with b; cbv iota end); try (cases_of_value; reflexivity); unfold set_adaptation; change (zlen PALETTE) with 15; assert (v <= 14) by (apply VA; clear; lia); (destruct (Z.leb_spec 15 v); [lia|reflexivity]).
Qed.
Lemma find_snoc {A} (f : A -> bool) l x : find f (l ++ [x]) = match find f l with Some y => Some y | None => if f x then Some x else None end.
Proof. induction l as [|y l IH]; [reflexivity|]. cbn [app find]. destruct (f y); [reflexivity|exact IH]. Qed.
Lemma selector_place s place : (place < 4)%nat -> is_speed (s, 0) = true -> (s =? speed_selector place) = Nat.eqb place (place_of s).
Proof.
  intros L I. unfold is_speed in I. cbn [fst] in I. assert (s = 8 \/ s = 12 \/ s = 13 \/ s = 14) as [-> |[-> |[-> | ->]]] by lia; (destruct place as [|[|[|[|place]]]]; [reflexivity..|exfalso; lia]).
Qed.
Lemma selector_speed place : (place < 4)%nat -> forall v, is_speed (speed_selector place, v) = true.
Proof. intros L v. destruct place as [|[|[|[|place]]]]; [reflexivity..|exfalso; lia]. Qed.
Lemma f_speed l : documented l -> 
  match o_literal_adaptation (set_all l opts_default) with Some a => length a = 4%nat | None => find is_speed l = None end /\
  forall place, (place < 4)%nat -> speed_at (set_all l opts_default) place = speed_set l place.
Proof.
  induction l as [|x l IH] using rev_ind; intros D; [split; [reflexivity|]; intros [|[|[|[|place]]]] L; try reflexivity; exfalso; lia|]. apply Forall_app in D. destruct D as (D & DX). apply Forall_cons_iff in DX. destruct DX as ((VO & VR) & _).
  destruct (IH D) as (IL & IS). clear IH. unfold speed_at in *. rewrite set_all_snoc, (speed_step _ _ _ VO VR). destruct x as (s, v). cbn [fst snd] in *. rewrite find_snoc.
  assert (SS : forall place, speed_set (l ++ [(s, v)]) place = if s =? speed_selector place then Some (nth (Z.to_nat v) PALETTE (0, 0)) else
    match last_set (speed_selector place) l with Some _ => speed_set l place | None => match find is_speed l with Some _ => speed_set l place | None => if is_speed (s, v) then Some (nth (Z.to_nat v) PALETTE (0, 0)) else None end end).
  { intros place. unfold speed_set. fold is_speed. rewrite last_set_snoc, find_snoc. cbn [fst snd]. destruct (s =? speed_selector place); [reflexivity|]. destruct (last_set (speed_selector place) l); [reflexivity|]. destruct (find is_speed l); [reflexivity|]. destruct (is_speed (s, v)); reflexivity. }
  destruct (is_speed (s, v)) eqn:SP; cbv zeta.
  - destruct (o_literal_adaptation (set_all l opts_default)) as [a|] eqn:EA.
    + assert (PL : (place_of s < length a)%nat) by (rewrite IL; unfold place_of; repeat match goal with |- context [if ?b then _ else _] => destruct b end; lia).
      destruct (nth_upd a (nth (Z.to_nat v) PALETTE (0, 0)) (place_of s) PL) as (N1 & N2 & N3). split; [congruence|]. intros place L. rewrite SS, (selector_place s place L SP). cbn [option_map].
      destruct (Nat.eqb_spec place (place_of s)) as [->|NE]; [f_equal; apply nth_error_nth, N1|]. specialize (IS place L). cbn [option_map] in IS.
      assert (EN : nth place (firstn (place_of s) a ++ nth (Z.to_nat v) PALETTE (0, 0) :: skipn (S (place_of s)) a) (0, 0) = nth place a (0, 0)).
      { destruct (nth_error a place) as [y|] eqn:EY; [|apply nth_error_None in EY; lia]. rewrite (nth_error_nth a place (0, 0) EY). apply nth_error_nth. rewrite N2 by exact NE. exact EY. }
      rewrite EN, IS. destruct (last_set (speed_selector place) l) eqn:EL; [reflexivity|]. destruct (find is_speed l) eqn:EF; [reflexivity|]. exfalso. revert IS. unfold speed_set. fold is_speed. rewrite EL, EF. discriminate.
    + split; [reflexivity|]. intros place L. rewrite SS, IL. cbn [option_map]. assert (EL : last_set (speed_selector place) l = None).
      { clear - IL L. induction l as [|y l IH] using rev_ind; [reflexivity|]. rewrite find_snoc in IL. destruct (find is_speed l) eqn:EF; [discriminate IL|]. destruct (is_speed y) eqn:EY; [discriminate IL|]. rewrite last_set_snoc. destruct (Z.eqb_spec (fst y) (speed_selector place)) as [Q|_]; [|apply IH; reflexivity].
        exfalso. pose proof (selector_speed place L (snd y)) as Q2. rewrite <- Q in Q2. unfold is_speed in *. cbn [fst] in Q2. congruence. }
      rewrite EL. destruct (s =? speed_selector place); (destruct place as [|[|[|[|place]]]]; [reflexivity..|exfalso; lia]).
  - split; [destruct (o_literal_adaptation _); [exact IL|rewrite IL; reflexivity]|]. intros place L. rewrite SS, (IS place L).
    destruct (Z.eqb_spec s (speed_selector place)) as [Q|_]; [exfalso; subst s; pose proof (selector_speed place L v); congruence|].
    destruct (last_set (speed_selector place) l) eqn:EL; [reflexivity|]. destruct (find is_speed l) eqn:EF; [reflexivity|]. unfold speed_set. fold is_speed. rewrite EL, EF. reflexivity.
Qed.
