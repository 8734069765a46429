(** Specification vocabulary for C35-C37. *)
From Coq Require Export Permutation.
From Verif Require Import Prelude ModelMux ModelMem.

(** ** C35: a client appends a block by asking for room, writing as much of the
    block as fits, and committing what it wrote *)
Definition rb_append (fresh : Z -> list Z) (b : rbuf) (min_size : option Z) (data : list Z)
  : option (Z * list Z * rbuf) :=
  let? '(room, b) := rb_checkout fresh b min_size in
  let written := zfirst room data in
  Some (room, written, rb_commit (rb_write b written) (zlen written)).
(** the rooms offered, what was written, and the final buffer *)
Fixpoint rb_session (fresh : Z -> list Z) (b : rbuf) (l : list (option Z * list Z))
  : option (list Z * list (list Z) * rbuf) :=
  match l with
  | [] => Some ([], [], b)
  | (m, data) :: l =>
      let? '(room, w, b) := rb_append fresh b m data in
      let? '(rooms, ws, b) := rb_session fresh b l in Some (room :: rooms, w :: ws, b)
  end.
Definition asked (m : option Z) : Z := match m with Some m => m | None => 1 end.

(** ** C37: a client that holds blocks, writes to them and gives them back *)
Inductive mop :=
| MAlloc (clear : bool) (size : Z)
| MWrite (k : nat) (data : list Z)  (* overwrite the memory of the k-th held block *)
| MFree (k : nat)
| MFreeCache.
Definition remove_nth {A} (k : nat) (l : list A) : list A := firstn k l ++ skipn (S k) l.
Definition m_step (st : repurp * list prefix) (o : mop) : option (repurp * list prefix) :=
  let '(r, held) := st in
  match o with
  | MAlloc clear s => let? '(p, r) := ca_alloc clear r s in Some (r, held ++ [p])
  | MWrite k data =>
      match nth_error held k with
      | None => Some st
      | Some p =>
          if zlen data =? zlen (bk_mem (px_block p))
          then Some (r, firstn k held ++ PX (BK (bk_id (px_block p)) data) (px_len p) :: skipn (S k) held)
          else Some st
      end
  | MFree k =>
      match nth_error held k with
      | None => Some st
      | Some p => Some (ca_free r p, remove_nth k held)
      end
  | MFreeCache => Some (ra_free_ref r, held)
  end.
Fixpoint m_run (st : repurp * list prefix) (ops : list mop) : option (repurp * list prefix) :=
  match ops with
  | [] => Some st
  | o :: ops => let? st := m_step st o in m_run st ops
  end.
Definition m_start : repurp * list prefix := (ra_new (BA 0 []), []).
(** where the blocks obtained from the base allocator are *)
Definition ids (b : block) : list Z := match bk_id b with Some i => [i] | None => [] end.
Definition whereabouts (st : repurp * list prefix) : list Z :=
  concat (map (fun p => ids (px_block p)) (snd st)) ++ ids (ra_cached (fst st)) ++ b_freed (ra_base (fst st)).
Definition obtained (st : repurp * list prefix) : list Z :=
  map Z.of_nat (seq 0 (Z.to_nat (b_next (ra_base (fst st))))).
Definition m_ok (o : mop) : Prop := match o with MAlloc _ s => 0 <= s < 2 ^ 32 | _ => True end.
