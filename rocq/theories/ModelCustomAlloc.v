(** Model of the allocator of the example program, c/custom_alloc.h:1-54: headers before
    each block, blocks aligned to 32 bytes, from malloc or from one static buffer.
    Pointers and sizes have 64 bits.  What malloc returns is an argument. *)
From Verif Require Import Prelude ModelMux ModelExample.

(** memory: the byte at each address *)
Definition memory := Z -> Z.
(** memcpy or memset of given bytes *)
Definition store (m : memory) (p : Z) (l : list Z) : memory :=
  fun a => if (p <=? a) && (a <? p + zlen l) then nth (Z.to_nat (a - p)) l 0 else m a.
Definition fetch (m : memory) (p : Z) (n : nat) : list Z := map (fun i => m (p + Z.of_nat i)) (seq 0 n).
(** huge_buffer's size and the mark, c/custom_alloc.h:4-6 *)
Definition BUFFER : Z := 1024 * 1024 * 255.
Definition science : Z := 0x5C1E11CE.
Record heap := HP { h_mem : memory; h_off : Z }.
(** the address of huge_buffer and of use_fake_malloc *)
Section Alloc.
Context (huge fake : Z).
(** custom_malloc_f, c/custom_alloc.h:8-26; [got] is the answer of malloc.  The result is
    the pointer and what was asked of malloc.  [None]: a store at NULL, or the assertion. *)
Definition custom_malloc (s : heap) (opaque user_size got : Z) : option (heap * Z * option Z) :=
  let amt := u64 (user_size + 2 * 8 + 4 + 32) in
  let '(retval, off, asked) :=
    if opaque =? fake then (huge + h_off s, u64 (h_off s + amt), None) else (got, h_off s, Some amt) in
  if retval =? 0 then None else
  let m := store (h_mem s) retval (repeat 0x34 (2 * 8 + 4 + 32)) in
  let m := store m retval (le 4 science) in
  let m := store m (retval + 4) (le 8 opaque) in
  let m := store m (retval + 4 + 8) (le 8 user_size) in
  let alignment_offset := Z.land (32 - Z.land (retval + 4 + 8 + 8 + 1) 0x1f) 0x1f in
  let m := store m (retval + 8 + 8 + 4 + alignment_offset) [alignment_offset] in
  let final_return := retval + 8 + 8 + 4 + 1 + alignment_offset in
  assert (Z.land final_return 0x1f =? 0) (Some (HP m off, final_return, asked)).
(** a char read as a signed number *)
Definition schar (x : Z) : Z := if x <? 128 then x else x - 256.
(** custom_free_f, c/custom_alloc.h:28-54.  The result is what was given to free.  [None]:
    one of the assertions. *)
Definition custom_free (s : heap) (opaque mfd : Z) : option (heap * option Z) :=
  if mfd =? 0 then Some (s, None) else
  let m := h_mem s in
  let local_mfd := mfd - 1 in
  let local_mfd := local_mfd - schar (m local_mfd) in
  let local_mfd := local_mfd - 4 - 8 - 8 in
  assert (unle (fetch m local_mfd 4) =? science) (
  let local_opaque := unle (fetch m (local_mfd + 4) 8) in
  let local_size := unle (fetch m (local_mfd + 4 + 8) 8) in
  assert (opaque =? local_opaque) (
  if opaque =? fake then
    if huge + h_off s - local_size =? mfd then Some (HP m (u64 (h_off s - (4 + 8 + 8 + local_size))), None) else Some (s, None)
  else Some (s, Some local_mfd))).
End Alloc.
