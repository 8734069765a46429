(** The caller's memory functions in the C API: src/ffi/alloc_util.rs and the functions of
    src/ffi/mod.rs that take or give back memory (builds with the standard library).
    Addresses are numbers; what the two heaps answer is an argument of each operation. *)
From Verif Require Import Prelude.

(** CAllocator, src/ffi/interface.rs:41-46: which of the two functions are given *)
Record hooks := HK { h_alloc : bool; h_free : bool; h_opaque : Z }.
(** what a heap sees.  [CAlloc o n p]: alloc_func(o, n) returned p; [CFree o p]:
    free_func(o, p); [RAlloc n p], [RFree p n]: the same of Rust's own heap, which is told
    the size on freeing *)
Inductive hev := CAlloc (o n p : Z) | CFree (o p : Z) | RAlloc (n p : Z) | RFree (p n : Z).
(** MemoryBlock: address, number of items, size of an item, src/ffi/alloc_util.rs:11 *)
Record block := BL { b_ptr : Z; b_len : Z; b_elem : Z }.
(** a boxed slice of no bytes occupies no memory *)
Definition std_alloc (n p : Z) : list hev := if n =? 0 then [] else [RAlloc n p].
Definition std_free (p n : Z) : list hev := if n =? 0 then [] else [RFree p n].
(** vec![..; size] panics when the bytes exceed isize::MAX *)
Definition vec_fits (n : Z) : bool := n <? 2 ^ 63.
(** the product handed to alloc_func is a usize (release build: wraps) *)
Definition product (size elem : Z) : Z := (size * elem) mod 2 ^ 64.

(** SubclassableAllocator::alloc_cell, src/ffi/alloc_util.rs:72-83 *)
Definition alloc_cell (h : hooks) (size elem p : Z) : option (block * list hev) :=
  if h_alloc h then Some (BL p size elem, [CAlloc (h_opaque h) (product size elem) p])
  else if vec_fits (size * elem) then Some (BL p size elem, std_alloc (size * elem) p) else None.
(** SubclassableAllocator::free_cell, src/ffi/alloc_util.rs:84-96 *)
Definition free_cell (h : hooks) (b : block) : list hev :=
  if b_len b =? 0 then []
  else if h_alloc h then if h_free h then [CFree (h_opaque h) (b_ptr b)] else []
  else std_free (b_ptr b) (b_len b * b_elem b).
(** Drop for MemoryBlock, src/ffi/alloc_util.rs:44-54: the block is leaked (and a line
    printed on standard output, not modelled) *)
Definition drop_block (b : block) : list hev := [].
(** divans_{compressor,decompressor}_malloc_{u8,usize}, src/ffi/mod.rs:110-117, 129-137,
    275-282, 293-301; alloc_stdlib, src/ffi/alloc_util.rs:216-221 *)
Definition user_malloc (h : hooks) (n elem p : Z) : option (block * list hev) :=
  if h_alloc h then Some (BL p n elem, [CAlloc (h_opaque h) (product n elem) p])
  else if vec_fits (n * elem) then Some (BL p n elem, std_alloc (n * elem) p) else None.
(** divans_{compressor,decompressor}_free_{u8,usize}, src/ffi/mod.rs:119-126, 138-145,
    284-291, 302-309; free_stdlib, src/ffi/alloc_util.rs:211-214; the caller passes the
    number of items they asked for *)
Definition user_free (h : hooks) (b : block) : list hev :=
  if h_free h then [CFree (h_opaque h) (b_ptr b)] else std_free (b_ptr b) (b_len b * b_elem b).
(** divans_new_{compressor,decompressor}_with_custom_alloc, src/ffi/mod.rs:38-54, 212-232;
    [size] = size_of the state *)
Definition new_state (h : hooks) (size p : Z) : list hev :=
  if h_alloc h then [CAlloc (h_opaque h) size p] else [RAlloc size p].
(** what the state's own Drop (free_ref) does with the cells it owns: each is freed or,
    where the code forgets one, dropped *)
Definition give_back (h : hooks) (cells : list (block * bool)) : list hev :=
  concat (map (fun c => if snd c : bool then free_cell h (fst c) else drop_block (fst c)) cells).
(** divans_free_{compressor,decompressor}, src/ffi/mod.rs:148-169, 311-323.  With both
    functions the state is copied out, its memory given back first, and the copy dropped
    at the end of the block. *)
Definition free_state (h : hooks) (size p : Z) (cells : list (block * bool)) : list hev :=
  if h_alloc h then if h_free h then CFree (h_opaque h) p :: give_back h cells else []
  else give_back h cells ++ [RFree p size].

(** ** A session: what happens between the creation of a state and its end.  Cells and the
    caller's buffers are owned: the operations that end one name its place in the list. *)
Inductive hop :=
| HCell (size elem p : Z)      (* the library allocates *)
| HFreeCell (i : nat)          (* ... and frees *)
| HDropCell (i : nat)          (* ... or forgets *)
| HMalloc (n elem p : Z)       (* divans_*_malloc_* *)
| HFree (i : nat).             (* divans_*_free_* *)
Record hstate := HS { hs_cells : list block; hs_bufs : list block }.
Definition take {A} (i : nat) (l : list A) : option (A * list A) :=
  match nth_error l i with Some x => Some (x, firstn i l ++ skipn (S i) l) | None => None end.
(** [None]: a panic, or an operation on something not owned *)
Definition hstep (h : hooks) (s : hstate) (o : hop) : option (hstate * list hev) :=
  match o with
  | HCell size elem p => let? '(b, t) := alloc_cell h size elem p in Some (HS (b :: hs_cells s) (hs_bufs s), t)
  | HFreeCell i => let? '(b, l) := take i (hs_cells s) in Some (HS l (hs_bufs s), free_cell h b)
  | HDropCell i => let? '(b, l) := take i (hs_cells s) in Some (HS l (hs_bufs s), drop_block b)
  | HMalloc n elem p => let? '(b, t) := user_malloc h n elem p in Some (HS (hs_cells s) (b :: hs_bufs s), t)
  | HFree i => let? '(b, l) := take i (hs_bufs s) in Some (HS (hs_cells s) l, user_free h b)
  end.
Fixpoint hrun (h : hooks) (s : hstate) (os : list hop) : option (hstate * list hev) :=
  match os with
  | [] => Some (s, [])
  | o :: os =>
      let? '(s, t) := hstep h s o in
      let? '(s, t2) := hrun h s os in Some (s, t ++ t2)
  end.
(** a whole session; [keep] tells which of the cells left are freed at the end *)
Definition hsession (h : hooks) (size p : Z) (os : list hop) (keep : block -> bool) : option (hstate * list hev) :=
  let? '(s, t) := hrun h (HS [] []) os in
  Some (s, new_state h size p ++ t ++ free_state h size p (map (fun b => (b, keep b)) (hs_cells s))).
