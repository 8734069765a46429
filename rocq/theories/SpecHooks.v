(** What a caller who supplies memory functions may expect: used by C72. *)
From Verif Require Import Prelude ModelHooks.

(** a piece of memory a heap has handed out: by alloc_func, with the opaque pointer of the
    call, or by Rust's heap, with its size *)
Inductive piece := FromCaller (o p : Z) | FromRust (p n : Z).
Definition piece_eq (a b : piece) : {a = b} + {a <> b}.
Proof. decide equality; apply Z.eq_dec. Defined.
Fixpoint without (x : piece) (l : list piece) : option (list piece) :=
  match l with
  | [] => None
  | y :: l => if piece_eq x y then Some l else match without x l with Some l => Some (y :: l) | None => None end
  end.
(** what is out after a list of events; [None]: something was freed that was not out,
    or was freed to the wrong heap, with the wrong opaque pointer or the wrong size *)
Fixpoint out (l : list piece) (t : list hev) : option (list piece) :=
  match t with
  | [] => Some l
  | CAlloc o _ p :: t => out (FromCaller o p :: l) t
  | RAlloc n p :: t => out (FromRust p n :: l) t
  | CFree o p :: t => match without (FromCaller o p) l with Some l => out l t | None => None end
  | RFree p n :: t => match without (FromRust p n) l with Some l => out l t | None => None end
  end.
(** the two functions are given together or not at all *)
Definition paired (h : hooks) : Prop := h_alloc h = h_free h.
Definition callers (e : hev) : Prop := match e with CAlloc _ _ _ | CFree _ _ => True | _ => False end.
Definition rusts (e : hev) : Prop := ~ callers e.
(** operations of the library alone *)
Definition internal (o : hop) : Prop := match o with HMalloc _ _ _ | HFree _ => False | _ => True end.
(** sizes a caller or the library may ask for *)
Definition positive (o : hop) : Prop := match o with HCell s e _ | HMalloc s e _ => 0 < s /\ 0 < e | HDropCell _ => False | _ => True end.
Definition sane_size (o : hop) : Prop := match o with HCell s e _ | HMalloc s e _ => 0 <= s /\ 0 < e | _ => True end.
