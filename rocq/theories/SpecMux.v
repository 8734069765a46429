(** Users of the multiplexer: a writer side and a reader side. *)
From Verif Require Import Prelude ModelMux.

Inductive stream := Cmd | Lit.
Definition sid (s : stream) : Z := match s with Cmd => 0 | Lit => 1 end.
Definition stream_eqb (a b : stream) : bool :=
  match a, b with Cmd, Cmd | Lit, Lit => true | _, _ => false end.

(** Writer: append data to a stream, or ask for at most [cap] serialised bytes. *)
Inductive wop := Write (s : stream) (data : list Z) | Linearize (cap : nat).
Fixpoint run_writer (m : mux) (ops : list wop) : option (list Z * mux) :=
  match ops with
  | [] => Some ([], m)
  | Write s data :: ops => let? m := push_data m (sid s) data in run_writer m ops
  | Linearize cap :: ops =>
      let? '(o, m) := serialize m (Z.of_nat cap) in
      let? '(o2, m) := run_writer m ops in Some (o ++ o2, m)
  end.
(** then close, offering output buffers of sizes [caps] *)
Fixpoint run_close (m : mux) (caps : list nat) : option (list Z * mux) :=
  match caps with
  | [] => Some ([], m)
  | c :: caps =>
      let? '(o, m) := serialize_close m (Z.of_nat c) in
      let? '(o2, m) := run_close m caps in Some (o ++ o2, m)
  end.
(** everything written to stream [s] *)
Fixpoint written (s : stream) (ops : list wop) : list Z :=
  match ops with
  | [] => []
  | Write t data :: ops => (if stream_eqb s t then data else []) ++ written s ops
  | Linearize _ :: ops => written s ops
  end.

(** Reader: feed a piece of input (bytes not accepted are offered again), or take
    up to [n] bytes from a stream. *)
Inductive rop := Feed (piece : list Z) | Take (s : stream) (n : nat).
Record reader := RD { rmux : mux; carry : list Z; taken0 : list Z; taken1 : list Z }.
Definition reader_new : reader := RD mux_new [] [] [].
(** offer [input] until the demultiplexer accepts nothing more of it *)
Fixpoint feed (fuel : nat) (m : mux) (input : list Z) : option (mux * list Z) :=
  match fuel with
  | O => None
  | S fuel =>
      let? '(n, m) := deserialize m input in
      if n =? 0 then Some (m, input) else feed fuel m (zskip n input)
  end.
Definition reader_step (r : reader) (op : rop) : option reader :=
  match op with
  | Feed piece =>
      let input := carry r ++ piece in
      let? '(m, rest) := feed (S (length input)) (rmux r) input in
      Some (RD m rest (taken0 r) (taken1 r))
  | Take s n =>
      let d := mb_data (getb (rmux r) (sid s)) in
      let k := Nat.min n (length d) in
      let m := consume_data (rmux r) (sid s) (Z.of_nat k) in
      Some (match s with
            | Cmd => RD m (carry r) (taken0 r ++ firstn k d) (taken1 r)
            | Lit => RD m (carry r) (taken0 r) (taken1 r ++ firstn k d)
            end)
  end.
Fixpoint run_reader (r : reader) (ops : list rop) : option reader :=
  match ops with
  | [] => Some r
  | op :: ops => let? r := reader_step r op in run_reader r ops
  end.
(** all input fed *)
Fixpoint fed (ops : list rop) : list Z :=
  match ops with
  | [] => []
  | Feed p :: ops => p ++ fed ops
  | Take _ _ :: ops => fed ops
  end.
(** all bytes of stream [s] the reader has been given or can still take *)
Definition delivered (r : reader) (s : stream) : list Z :=
  (match s with Cmd => taken0 r | Lit => taken1 r end) ++ mb_data (getb (rmux r) (sid s)).
