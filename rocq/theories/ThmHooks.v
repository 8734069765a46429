(** C72: memory functions supplied by the caller of the C API. *)
From Verif Require Import Prelude ModelHooks SpecHooks ProofHooks.
From Coq Require Import Permutation.

(** Whether the caller gives both functions or neither, whatever the library and the
    caller allocate, free or forget, in whatever order: everything freed had been handed
    out by the same heap, with the same opaque pointer and the same size, and had not been
    freed since. *)
Theorem C72_every_free_matches : forall h size p os keep s t, paired h -> Forall sane_size os -> hsession h size p os keep = Some (s, t) -> out [] t <> None.
Proof. intros h size p os keep s t P S E. destruct (session_accounts h size p os keep s t (or_introl P) S E) as (l & r & O & _). congruence. Qed.
Print Assumptions C72_every_free_matches.

(** The library's own allocations keep that discipline even when only one of the two
    functions is given. *)
Theorem C72_own_memory : forall h size p os keep s t, Forall internal os -> Forall sane_size os -> hsession h size p os keep = Some (s, t) -> out [] t <> None.
Proof. intros h size p os keep s t P S E. destruct (session_accounts h size p os keep s t (or_intror P) S E) as (l & r & O & _). congruence. Qed.
Print Assumptions C72_own_memory.

(** With both functions Rust's heap is never used, and every call carries the caller's
    opaque pointer; with neither, only Rust's heap is. *)
Definition by_caller (o : Z) (e : hev) : Prop := match e with CAlloc o' _ _ | CFree o' _ => o' = o | _ => False end.
Lemma free_cell_heap h b : (h_alloc h = true -> Forall (by_caller (h_opaque h)) (free_cell h b)) /\ (h_alloc h = false -> Forall rusts (free_cell h b)).
Proof.
  unfold free_cell, std_free. split; intros E; rewrite E; repeat match goal with |- context [if ?c then _ else _] => destruct c end; repeat constructor; intros [].
Qed.
Lemma hrun_heap h : paired h -> forall os s s' t, hrun h s os = Some (s', t) -> (h_alloc h = true -> Forall (by_caller (h_opaque h)) t) /\ (h_alloc h = false -> Forall rusts t).
Proof.
  intros PA. induction os as [|o os IH]; intros s s' t E; cbn [hrun] in E.
  - assert (t = []) as -> by congruence. split; constructor.
  - destruct (hstep h s o) as [(s1, t1)|] eqn:E1; cbn [bind] in E; [|discriminate].
    destruct (hrun h s1 os) as [(s2, t2)|] eqn:E2; cbn [bind] in E; [|discriminate]. assert (t = t1 ++ t2) as -> by congruence.
    destruct (IH s1 s2 t2 E2) as (A & B).
    assert (H1 : (h_alloc h = true -> Forall (by_caller (h_opaque h)) t1) /\ (h_alloc h = false -> Forall rusts t1)).
    { destruct o as [size elem p|i|i|n elem p|i]; cbn [hstep] in E1.
      - unfold alloc_cell, std_alloc in E1. split; intros HA; rewrite HA in E1; cbn [bind] in E1.
        + assert (t1 = [CAlloc (h_opaque h) (product size elem) p]) as -> by congruence. repeat constructor.
        + destruct (vec_fits _); cbn [bind] in E1; [|discriminate]. destruct (_ =? 0); [assert (t1 = []) as -> by congruence; constructor|].
          assert (t1 = [RAlloc (size * elem) p]) as -> by congruence. repeat constructor. intros [].
      - destruct (take i (hs_cells s)) as [(b, m)|]; cbn [bind] in E1; [|discriminate]. assert (t1 = free_cell h b) as -> by congruence. apply free_cell_heap.
      - destruct (take i (hs_cells s)) as [(b, m)|]; cbn [bind] in E1; [|discriminate]. assert (t1 = drop_block b) as -> by congruence. split; constructor.
      - unfold user_malloc, std_alloc in E1. split; intros HA; rewrite HA in E1; cbn [bind] in E1.
        + assert (t1 = [CAlloc (h_opaque h) (product n elem) p]) as -> by congruence. repeat constructor.
        + destruct (vec_fits _); cbn [bind] in E1; [|discriminate]. destruct (_ =? 0); [assert (t1 = []) as -> by congruence; constructor|].
          assert (t1 = [RAlloc (n * elem) p]) as -> by congruence. repeat constructor. intros [].
      - destruct (take i (hs_bufs s)) as [(b, m)|]; cbn [bind] in E1; [|discriminate]. assert (t1 = user_free h b) as -> by congruence.
        unfold user_free, std_free. rewrite <- PA. split; intros HA; rewrite HA; [repeat constructor|]. destruct (_ =? 0); repeat constructor. intros []. }
    destruct H1 as (A1 & B1). split; intros HA; apply Forall_app; auto.
Qed.
Lemma give_back_heap h cells : (h_alloc h = true -> Forall (by_caller (h_opaque h)) (give_back h cells)) /\ (h_alloc h = false -> Forall rusts (give_back h cells)).
Proof.
  unfold give_back. split; intros HA; (induction cells as [|(b, k) cells IH]; cbn [map concat fst snd]; [constructor|]); apply Forall_app; (split; [|exact IH]);
    destruct k; try constructor; now apply free_cell_heap.
Qed.
Theorem C72_one_heap : forall h size p os keep s t, paired h -> hsession h size p os keep = Some (s, t) ->
  (h_alloc h = true -> Forall (by_caller (h_opaque h)) t) /\ (h_alloc h = false -> Forall rusts t).
Proof.
  intros h size p os keep s t PA. unfold hsession. destruct (hrun h (HS [] []) os) as [(s1, t1)|] eqn:E1; cbn [bind]; [|discriminate].
  intros E. match type of E with Some (_, ?y) = _ => assert (t = y) as -> by congruence end. destruct (hrun_heap h PA os _ _ _ E1) as (A & B).
  set (cl := map _ _). destruct (give_back_heap h cl) as (C & D). unfold new_state, free_state. split; intros HA; rewrite HA; apply Forall_app.
  - split; [repeat constructor|]. apply Forall_app. split; [auto|]. unfold paired in PA. rewrite <- PA, HA. apply Forall_cons; [reflexivity|auto].
  - split; [repeat constructor; intros []|]. apply Forall_app. split; [auto|]. apply Forall_app. split; [auto|]. repeat constructor. intros [].
Qed.
Print Assumptions C72_one_heap.

(** Nothing is left behind: if no block of length zero was asked for, the library forgot
    none of its cells and the caller gave back their buffers, then after the state is
    freed nothing is out. *)
Theorem C72_all_returned : forall h size p os keep s t, paired h -> Forall positive os -> (forall b, keep b = true) -> hsession h size p os keep = Some (s, t) ->
  hs_bufs s = [] -> out [] t = Some [].
Proof.
  intros h size p os keep s t PA PO K E B.
  assert (SS : Forall sane_size os). { eapply Forall_impl; [|exact PO]. intros [a b c|i|i|a b c|i]; cbn; lia. }
  destruct (session_accounts h size p os keep s t (or_introl PA) SS E) as (l & r & O & P & G).
  rewrite (G PO K) in P by (unfold paired in PA; congruence). rewrite B in P. cbn [flat_map app] in P.
  apply Permutation_sym, Permutation_nil in P. congruence.
Qed.
Print Assumptions C72_all_returned.

(** What alloc_func is asked for covers the items, as long as their size fits 64 bits. *)
Theorem C72_request_covers : forall h s o s' t n elem p, hstep h s o = Some (s', t) -> (o = HCell n elem p \/ o = HMalloc n elem p) -> h_alloc h = true ->
  0 <= n -> 0 < elem -> n * elem < 2 ^ 64 -> t = [CAlloc (h_opaque h) (n * elem) p].
Proof.
  intros h s o s' t n elem p E O HA N EL F. assert (PR : product n elem = n * elem) by (unfold product; apply Z.mod_small; nia).
  destruct O as [-> | ->]; cbn [hstep] in E; unfold alloc_cell, user_malloc in E; rewrite HA, PR in E; cbn [bind] in E; congruence.
Qed.
Print Assumptions C72_request_covers.

(** alloc_func without free_func: the caller's buffer is handed to Rust's heap when they
    return it ... *)
Theorem C72_only_alloc_refuted : exists h size p os keep s t, h_alloc h = true /\ h_free h = false /\ Forall positive os /\ hsession h size p os keep = Some (s, t) /\ out [] t = None.
Proof.
  exists (HK true false 7), 100, 1000, [HMalloc 10 1 2000; HFree 0], (fun _ => true). eexists. eexists.
  split; [reflexivity|]. split; [reflexivity|]. split; [repeat constructor; cbn; lia|]. split; [vm_compute; reflexivity|]. vm_compute. reflexivity.
Qed.
Print Assumptions C72_only_alloc_refuted.
(** ... and free_func alone is handed memory it has not seen. *)
Theorem C72_only_free_refuted : exists h size p os keep s t, h_alloc h = false /\ h_free h = true /\ Forall positive os /\ hsession h size p os keep = Some (s, t) /\ out [] t = None.
Proof.
  exists (HK false true 7), 100, 1000, [HMalloc 10 1 2000; HFree 0], (fun _ => true). eexists. eexists.
  split; [reflexivity|]. split; [reflexivity|]. split; [repeat constructor; cbn; lia|]. split; [vm_compute; reflexivity|]. vm_compute. reflexivity.
Qed.
Print Assumptions C72_only_free_refuted.
(** A cell of length zero is asked for but never returned. *)
Theorem C72_zero_length_refuted : exists h size p os keep s t, paired h /\ Forall sane_size os /\ (forall b, keep b = true) /\ hsession h size p os keep = Some (s, t) /\ hs_bufs s = [] /\ hs_cells s = [] /\
  out [] t = Some [FromCaller 7 2000].
Proof.
  exists (HK true true 7), 100, 1000, [HCell 0 16 2000; HFreeCell 0], (fun _ => true). eexists. eexists.
  split; [reflexivity|]. split; [repeat constructor; cbn; lia|]. split; [reflexivity|]. split; [vm_compute; reflexivity|]. vm_compute. repeat split; reflexivity.
Qed.
Print Assumptions C72_zero_length_refuted.
(** A number of items whose size does not fit 64 bits: less memory is asked for than the
    items take. *)
Theorem C72_size_wraps_refuted : exists h s n p s', h_alloc h = true /\ 0 <= n < 2 ^ 64 /\ hstep h s (HMalloc n 8 p) = Some (s', [CAlloc (h_opaque h) 0 p]) /\ n * 8 > 0.
Proof.
  exists (HK true true 7), (HS [] []), (2 ^ 61), 2000. eexists. split; [reflexivity|]. split; [lia|]. split; [vm_compute; reflexivity|lia].
Qed.
Print Assumptions C72_size_wraps_refuted.

(** both functions: two cells, one freed early, one at the end, and a buffer of the
    caller's *)
Example C72_case : exists s t, hsession (HK true true 7) 100 1000 [HCell 256 4 2000; HMalloc 64 1 3000; HCell 16 8 4000; HFreeCell 1; HFree 0] (fun _ => true) = Some (s, t) /\
  hs_bufs s = [] /\ length (hs_cells s) = 1%nat /\ length t = 8%nat /\ out [] t = Some [] /\ Forall positive [HCell 256 4 2000; HMalloc 64 1 3000; HCell 16 8 4000; HFreeCell 1; HFree 0] /\ paired (HK true true 7).
Proof.
  eexists. eexists. split; [vm_compute; reflexivity|]. split; [reflexivity|]. split; [reflexivity|]. split; [reflexivity|]. split; [vm_compute; reflexivity|]. split; [repeat constructor; cbn; lia|reflexivity].
Qed.
