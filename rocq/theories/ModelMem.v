(** Model of src/resizable_buffer.rs, of the frozen slices of src/slice_util.rs
    and of the caching allocator of src/alloc_util.rs.  [None] is a panic.
    Sizes are unbounded integers except where a cast truncates. *)
From Verif Require Import Prelude ModelMux.

(** ** ResizableByteBuffer, src/resizable_buffer.rs:19-34 *)
Record rbuf := RB { rb_mem : list Z; rb_size : Z }.
Definition rb_new : rbuf := RB [] 0.
(** ensure_free_space_in_buffer, src/resizable_buffer.rs:35-43.  [fresh n] is the
    content of a newly allocated cell of [n] items; freeing is not an effect
    here. *)
Definition rb_ensure (fresh : Z -> list Z) (b : rbuf) (min_size : Z) : option rbuf :=
  if zlen (rb_mem b) =? 0 then Some (RB (fresh 66000) (rb_size b))
  else if zlen (rb_mem b) <? rb_size b + min_size then
    let cell := fresh (rb_size b * 2) in
    assert (rb_size b <=? zlen cell) (* split_at_mut *)
    (assert (rb_size b <=? zlen (rb_mem b)) (* split_at *)
    (Some (RB (put_at cell 0 (zfirst (rb_size b) (rb_mem b))) (rb_size b))))
  else Some b.
(** checkout_next_buffer, src/resizable_buffer.rs:44-47: the length of the slice
    handed out, which starts at [rb_size] *)
Definition rb_checkout (fresh : Z -> list Z) (b : rbuf) (min_size : option Z) : option (Z * rbuf) :=
  let? b := rb_ensure fresh b (match min_size with Some m => m | None => 1 end) in
  assert (rb_size b <=? zlen (rb_mem b)) (Some (zlen (rb_mem b) - rb_size b, b)).
(** writing through the slice handed out by checkout *)
Definition rb_write (b : rbuf) (data : list Z) : rbuf :=
  RB (put_at (rb_mem b) (rb_size b) data) (rb_size b).
(** commit_next_buffer, src/resizable_buffer.rs:48-50 *)
Definition rb_commit (b : rbuf) (n : Z) : rbuf := RB (rb_mem b) (rb_size b + n).
(** slice, src/resizable_buffer.rs:57-59 *)
Definition rb_slice (b : rbuf) : option (list Z) :=
  assert (rb_size b <=? zlen (rb_mem b)) (Some (zfirst (rb_size b) (rb_mem b))).

(** ** SliceReference, src/slice_util.rs:79-84 *)
Record sref := SR { sr_data : list Z; sr_start : Z; sr_len : Z }.
(** split_at(start).1.split_at(len).0 *)
Definition sub_slice (l : list Z) (start len : Z) : option (list Z) :=
  assert (start <=? zlen l) (assert (len <=? zlen l - start) (Some (zfirst len (zskip start l)))).
(** new, src/slice_util.rs:87-93 *)
Definition sr_new (input : list Z) (start len : Z) : option sref :=
  let? d := sub_slice input start len in Some (SR d start len).
(** freeze_dry, src/slice_util.rs:94-100 *)
Definition sr_freeze_dry (r : sref) : sref := SR [] (sr_start r) (sr_len r).
(** thaw, src/slice_util.rs:108-114 *)
Definition sr_thaw (r : sref) (slice : list Z) : option sref :=
  let? d := sub_slice slice (sr_start r) (sr_len r) in Some (SR d (sr_start r) (sr_len r)).
(** brotli::InputReference: bytes and their offset; InputPair: two of them *)
Record iref := IR { ir_data : list Z; ir_off : Z }.
(** thaw_br and Unfreezable::thaw, thaw_mut, src/slice_util.rs:48-59, 116-121 *)
Definition sr_thaw_br (r : sref) (slice : list Z) : option iref :=
  let? d := sub_slice slice (sr_start r) (sr_len r) in Some (IR d (sr_start r)).
Inductive thawed := TOk (r : iref) | TErr.
(** thaw_pair, src/slice_util.rs:60-76; the subtraction in line 67 underflows
    (panic) when the slice starts before the pair *)
Definition sr_thaw_pair (r : sref) (p0 p1 : iref) : option thawed :=
  if ir_off p1 <=? sr_start r then
    let? d := sub_slice (ir_data p1) (sr_start r - ir_off p1) (sr_len r) in Some (TOk (IR d (sr_start r)))
  else
    assert (ir_off p0 <=? sr_start r) (
    let offset := sr_start r - ir_off p0 in
    if offset + sr_len r <=? zlen (ir_data p0) then
      let? d := sub_slice (ir_data p0) offset (sr_len r) in Some (TOk (IR d (sr_start r)))
    else Some TErr).

(** ** The base allocator (the [alloc] crate): blocks carry an identity so that
    ownership can be followed; [bk_id = None] is AllocatedMemory::default().
    Fresh memory is filled with the default value. *)
Record block := BK { bk_id : option Z; bk_mem : list Z }.
Definition bk_default : block := BK None [].
Record base := BA { b_next : Z; b_freed : list Z }.
Definition base_alloc (a : base) (n : Z) : block * base :=
  (BK (Some (b_next a)) (repeat 0 (Z.to_nat n)), BA (b_next a + 1) (b_freed a)).
Definition base_free (a : base) (b : block) : base :=
  match bk_id b with None => a | Some i => BA (b_next a) (i :: b_freed a) end.
(** AllocatedMemoryPrefix, src/slice_util.rs:138 *)
Record prefix := PX { px_block : block; px_len : Z }.
(** new, realloc, src/slice_util.rs:183-190; the length is cast to u32 *)
Definition px_new (a : base) (n : Z) : prefix * base :=
  let '(b, a) := base_alloc a n in (PX b (n mod 2 ^ 32), a).
Definition px_realloc (b : block) (n : Z) : option prefix :=
  assert (n <=? zlen (bk_mem b)) (Some (PX b (n mod 2 ^ 32))).
(** slice, src/slice_util.rs:174-176 *)
Definition px_slice (p : prefix) : option (list Z) :=
  assert (px_len p <=? zlen (bk_mem (px_block p))) (Some (zfirst (px_len p) (bk_mem (px_block p)))).

(** ** RepurposingAlloc, src/alloc_util.rs:19-22, 117-123 *)
Record repurp := RA { ra_base : base; ra_cached : block }.
Definition ra_new (a : base) : repurp := RA a bk_default.
(** CachedAllocator::alloc_cell, src/alloc_util.rs:92-107; [clear] says whether
    ShouldClear::should_clear() is Some *)
Definition ca_alloc (clear : bool) (r : repurp) (s : Z) : option (prefix * repurp) :=
  if s <=? zlen (bk_mem (ra_cached r)) then
    let retval := ra_cached r in
    let retval := if clear then BK (bk_id retval) (map (fun _ => 0) (bk_mem retval)) else retval in
    let? p := px_realloc retval s in
    Some (p, RA (ra_base r) bk_default)
  else
    let '(p, a) := px_new (ra_base r) s in Some (p, RA a (ra_cached r)).
(** CachedAllocator::free_cell, src/alloc_util.rs:108-114 *)
Definition ca_free (r : repurp) (p : prefix) : repurp :=
  if zlen (bk_mem (ra_cached r)) <? zlen (bk_mem (px_block p)) then
    RA (base_free (ra_base r) (ra_cached r)) (px_block p)
  else RA (base_free (ra_base r) (px_block p)) (ra_cached r).
(** free_ref, src/alloc_util.rs:148-150 *)
Definition ra_free_ref (r : repurp) : repurp := RA (base_free (ra_base r) (ra_cached r)) bk_default.
