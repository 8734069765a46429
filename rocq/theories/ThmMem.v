(** Property theorems C35-C37 (growable buffer, frozen slices, caching allocator). *)
From Verif Require Import Prelude ModelMux ModelMem SpecMem ProofMem.

(** C35.  Whatever blocks are appended, with requested minimum room up to 33000
    (the code asks for 1 and 256) and whatever fresh memory contains: every
    checkout offers the room asked for, and the buffer holds exactly what was
    written, in order. *)
Theorem C35_growable_buffer : forall fresh l,
  (forall n, 0 <= n -> zlen (fresh n) = n) ->
  Forall (fun md => 0 <= asked (fst md) <= 33000) l ->
  exists rooms ws b, rb_session fresh rb_new l = Some (rooms, ws, b) /\
    Forall2 (fun md room => asked (fst md) <= room) l rooms /\
    Forall2 (fun md rw => snd rw = zfirst (fst rw) (snd md)) l (combine rooms ws) /\
    rb_slice b = Some (concat ws).
Proof. exact growable. Qed.
Print Assumptions C35_growable_buffer.

(** Larger minimums are not honoured: the first checkout always allocates
    66000, and growing doubles the used size whatever was asked. *)
Theorem C35_large_minimum_refuted : forall fresh, (forall n, 0 <= n -> zlen (fresh n) = n) ->
  exists b, rb_checkout fresh rb_new (Some 66001) = Some (66000, b).
Proof.
  exact (fun fresh H => ex_intro _ (RB (fresh 66000) 0)
    (eq_trans (f_equal (fun n => let? b := Some (RB (fresh 66000) 0) in assert (0 <=? n) (Some (n - 0, b))) (H 66000 ltac:(lia))) eq_refl)).
Qed.
Print Assumptions C35_large_minimum_refuted.

Example C35_case :
  let l := [(Some 256, repeat 7 (Z.to_nat 300)); (None, [1; 2; 3])] in
  Forall (fun md => 0 <= asked (fst md) <= 33000) l /\
  option_map fst (rb_session (fun n => repeat 9 (Z.to_nat n)) rb_new l) =
    Some ([66000; 65700], [repeat 7 (Z.to_nat 300); [1; 2; 3]]).
Proof.
  cbv zeta. split; [repeat (apply Forall_cons; [cbn [fst asked]; lia|]); apply Forall_nil|].
  vm_compute. reflexivity.
Qed.

(** C36.  Freezing a sub-slice and thawing it against the same buffer gives the
    same bytes. *)
Theorem C36_freeze_thaw : forall input start len r, sr_new input start len = Some r ->
  sr_thaw (sr_freeze_dry r) input = Some r /\
  sr_thaw_br (sr_freeze_dry r) input = Some (IR (sr_data r) start).
Proof. exact freeze_thaw. Qed.
Print Assumptions C36_freeze_thaw.

(** Thawing against two adjacent halves: the bytes of the joined buffer when the
    slice lies in one half, and an error exactly when it straddles both. *)
Theorem C36_thaw_pair : forall r p0 p1, 0 <= sr_len r -> 0 <= ir_off p0 <= sr_start r ->
  ir_off p1 = ir_off p0 + zlen (ir_data p0) ->
  sr_start r + sr_len r <= ir_off p1 + zlen (ir_data p1) ->
  sr_thaw_pair r p0 p1 =
    Some (if (ir_off p1 <=? sr_start r) || (sr_start r + sr_len r <=? ir_off p1)
          then TOk (IR (zfirst (sr_len r) (zskip (sr_start r - ir_off p0) (ir_data p0 ++ ir_data p1))) (sr_start r))
          else TErr).
Proof. exact thaw_pair_ok. Qed.
Print Assumptions C36_thaw_pair.

Example C36_case :
  sr_new [10; 11; 12; 13; 14] 1 3 = Some (SR [11; 12; 13] 1 3) /\
  sr_thaw_pair (SR [] 103 2) (IR [1; 2; 3; 4; 5; 6] 100) (IR [7; 8] 106) = Some (TOk (IR [4; 5] 103)) /\
  sr_thaw_pair (SR [] 106 2) (IR [1; 2; 3; 4; 5; 6] 100) (IR [7; 8] 106) = Some (TOk (IR [7; 8] 106)) /\
  sr_thaw_pair (SR [] 105 2) (IR [1; 2; 3; 4; 5; 6] 100) (IR [7; 8] 106) = Some TErr.
Proof. vm_compute. auto. Qed.

(** C37.  After any history of requests (below 2^32), writes and releases, each
    block obtained from the base allocator is in exactly one place: held by the
    client, in the cache, or returned to the base allocator. *)
Theorem C37_blocks_conserved : forall ops, Forall m_ok ops ->
  exists st, m_run m_start ops = Some st /\
    Permutation (whereabouts st) (obtained st) /\ NoDup (whereabouts st).
Proof. exact conserves. Qed.
Print Assumptions C37_blocks_conserved.

(** Every request is served, from any state, with a block of exactly the
    requested visible length, cleared when clearing was asked for. *)
Theorem C37_request_served : forall clear r s, 0 <= s < 2 ^ 32 ->
  exists p r', ca_alloc clear r s = Some (p, r') /\
    exists l, px_slice p = Some l /\ zlen l = s /\ (clear = true -> l = repeat 0 (Z.to_nat s)).
Proof. exact alloc_serves. Qed.
Print Assumptions C37_request_served.

Example C37_case :
  exists st, m_run m_start [MAlloc false 5; MAlloc true 3; MWrite 0 [1; 2; 3; 4; 5]; MFree 0; MAlloc false 4; MFree 0; MFreeCache] = Some st /\
    snd st = [PX (BK (Some 0) [1; 2; 3; 4; 5]) 4] /\ b_freed (ra_base (fst st)) = [1].
Proof. eexists. vm_compute. split; [reflexivity|]. split; reflexivity. Qed.
