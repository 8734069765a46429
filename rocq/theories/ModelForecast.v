(** Model of the distance cache of the command optimiser, src/ir_optimize/cache.rs, and of
    what should_merge does with it before it compares costs, src/ir_optimize/mod.rs:31-63. *)
From Verif Require Import Prelude ModelMux ModelCmd ModelCodec ModelIr.

(** struct CacheEntry and Cache, src/ir_optimize/cache.rs:38-46.  Simplified: the hit list
    is cut into its rows of CACHE_HIT_REFERENCE_SIZE = 8 bytes. *)
Record centry := CE { ce_dist : Z; ce_origin : nat }.
Record fcache := FC { fc_cache : list centry; fc_hits : list (list Z) }.
(** Cache::new, 50-58: alloc_cell gives zeros *)
Definition fcache_new (lru : list Z) (num_commands : nat) : fcache :=
  FC (map (fun d => CE d 0) (firstn 4 lru)) (repeat (repeat 0 8) num_commands).
(** get_cache_hit_log and get_cache_hit_log_mut, 62-75: a row that does not exist is
    replaced by the first *)
Definition row_index (c : fcache) (cmd_offset : nat) : nat := if (cmd_offset <? length (fc_hits c))%nat then cmd_offset else 0%nat.
Definition hit_log (c : fcache) (cmd_offset : nat) : list Z := nth (row_index c cmd_offset) (fc_hits c) [].
(** CacheHitReferenceMut::set_code_and_offset, 10-17; [as u8] *)
Definition u8_ (x : Z) : Z := x mod 256.
Definition set_code_and_offset (row : list Z) (code : Z) (off : nat) : list Z :=
  let o := Z.of_nat off + 1 in
  [code; u8_ o; u8_ (Z.shiftr o 8); u8_ (Z.shiftr o 16); u8_ (Z.shiftr o 24)] ++ skipn 5 row.
(** CacheHitReference, 24-34; usize of 64 bits *)
Definition log_offset (row : list Z) : Z :=
  (Z.lor (Z.lor (Z.lor (znth row 1) (Z.shiftl (znth row 2) 8)) (Z.shiftl (znth row 3) 16)) (Z.shiftl (znth row 4) 24) - 1) mod 2 ^ 64.
Definition entry_id (row : list Z) : Z := znth row 0.
Definition log_miss (row : list Z) : bool :=
  Z.lor (Z.lor (Z.lor (Z.lor (Z.lor (Z.lor (znth row 1) (znth row 2)) (znth row 3)) (znth row 4)) (znth row 5)) (znth row 6)) (znth row 7) =? 0.
(** the third component of get_distance_from_mnemonic_code, src/codec/interface.rs:999-1008 *)
Definition cache_index (code : Z) : nat := Z.to_nat (if code <? 4 then code else Z.shiftr (Z.land code 2) 1).
(** forward_reference_hitlist, src/ir_optimize/cache.rs:76-81 *)
Definition forward_reference (c : fcache) (code : Z) (ci : nat) (cmd_offset : nat) : fcache :=
  let e := nth ci (fc_cache c) (CE 0 0) in
  let c := FC (upd (fc_cache c) ci (CE (ce_dist e) cmd_offset)) (fc_hits c) in
  let r := row_index c (ce_origin e) in
  FC (fc_cache c) (upd (fc_hits c) r (set_code_and_offset (nth r (fc_hits c) []) code cmd_offset)).
(** populate, 82-107.  Its search for a code is the loop of distance_mnemonic_code *)
Definition populate (c : fcache) (dist : Z) (cmd_offset : nat) : fcache :=
  let cur := map ce_dist (fc_cache c) in
  let code := distance_mnemonic_code cur dist in
  let c := if code =? 15 then c else forward_reference c code (cache_index code) cmd_offset in
  let e := CE dist cmd_offset in
  let k i := nth i (fc_cache c) (CE 0 0) in
  FC (if dist =? znth cur 0 then [e; k 1%nat; k 2%nat; k 3%nat]
      else if dist =? znth cur 1 then [e; k 0%nat; k 2%nat; k 3%nat]
      else if dist =? znth cur 2 then [e; k 0%nat; k 1%nat; k 3%nat]
      else [e; k 0%nat; k 1%nat; k 2%nat]) (fc_hits c).
(** the loop over the commands, src/ir_optimize/mod.rs:184-188 *)
Fixpoint populate_all (c : fcache) (l : list icmd) (index : nat) : fcache :=
  match l with
  | [] => c
  | IOther (Copy d _) :: l => populate_all (populate c d index) l (S index)
  | _ :: l => populate_all c l (S index)
  end.

(** What + and - on u32 do: a build with overflow checks panics ([None]), one without
    wraps *)
Record arith := AR { a_add : Z -> Z -> option Z; a_sub : Z -> Z -> option Z }.
Definition checked : arith := AR (fun x y => assert (x + y <? 2 ^ 32) (Some (x + y))) (fun x y => assert (y <=? x) (Some (x - y))).
Definition wrapping : arith := AR (fun x y => Some ((x + y) mod 2 ^ 32)) (fun x y => Some ((x - y) mod 2 ^ 32)).
Definition set_lru (l : list Z) (i : nat) (v : option Z) : option (list Z) := let? v := v in Some (upd l i v).
(** the match of should_merge, src/ir_optimize/mod.rs:45-60 *)
Definition forecast (A : arith) (lru : list Z) (id d : Z) : option (list Z) :=
  if id <? 4 then Some (upd lru (Z.to_nat id) d) else
  match id with
  | 4 => set_lru lru 0 (a_sub A d 1) | 5 => set_lru lru 0 (a_add A d 1)
  | 6 => set_lru lru 1 (a_sub A d 1) | 7 => set_lru lru 1 (a_add A d 1)
  | 8 => set_lru lru 0 (a_sub A d 2) | 9 => set_lru lru 0 (a_add A d 2)
  | 10 => set_lru lru 1 (a_sub A d 2) | 11 => set_lru lru 1 (a_add A d 2)
  | 12 => set_lru lru 0 (a_sub A d 3) | 13 => set_lru lru 0 (a_add A d 3)
  | 14 => set_lru lru 1 (a_sub A d 3)
  | _ => Some lru
  end.
(** src/ir_optimize/mod.rs:37-63: the trial coder's distances while the merged literal is
    priced; they are restored afterwards (87, 107) *)
Definition prepare (A : arith) (c : fcache) (lru : list Z) (copy_index : nat) (d : Z) : option (list Z) :=
  let row := hit_log c copy_index in
  if log_miss row then Some lru
  else if distance_mnemonic_code lru d =? 15 then forecast A lru (entry_id row) d else Some lru.

(** obs_distance (src/codec/interface.rs:509-527) on the distances alone *)
Definition lru_obs (l : list Z) (d : Z) : list Z :=
  let l0 := znth l 0 in let l1 := znth l 1 in let l2 := znth l 2 in let l3 := znth l 3 in
  if d =? l1 then [d; l0; l2; l3] else if d =? l2 then [d; l0; l1; l3] else if negb (d =? l0) then [d; l0; l1; l2] else l.
Definition lru_step (l : list Z) (x : icmd) : list Z := match x with IOther (Copy d _) => lru_obs l d | _ => l end.
(** distance_lru of a new codec, src/codec/interface.rs (as [bk_new] in ModelCodec.v) *)
Definition lru_new : list Z := [4; 11; 15; 16].

(** The merge loop of ir_optimize, as in ModelIr.v, with the preparation of should_merge
    before the comparison of costs, and the distances of the trial coder, which is given
    every command that is stepped over (src/ir_optimize/mod.rs:228-245).  [b] is
    mb.0.len(), the first part starting at offset 0 (the test of 31-33). *)
Definition f_step (A : arith) (c : fcache) (b : Z) (merge : nat -> option bool) (trial : nat -> bool)
  (l : list icmd) (lru : list Z) (el index : nat) : ir_result (list icmd * list Z * nat) :=
  let go := match ir_step b merge trial l el index with
            | IrOk (l', el') => IrOk (l', if (el' =? el)%nat then lru else match nth_error l el with Some x => lru_step lru x | None => lru end, el')
            | IrErr => IrErr | IrPanic => IrPanic end in
  match nth_error l el, nth_error l index with
  | Some (ILit off len _), Some (IOther (Copy d n)) =>
      if (off <? b) && (b <? off + len + n) then go
      else match prepare A c lru index d with None => IrPanic | Some _ => go end
  | _, _ => go
  end.
Fixpoint f_loop (A : arith) (c : fcache) (b : Z) (merge : nat -> option bool) (trial : nat -> bool)
  (n : nat) (l : list icmd) (lru : list Z) (el index : nat) : ir_result (list icmd) :=
  match n with
  | O => IrOk l
  | S n =>
      match f_step A c b merge trial l lru el index with
      | IrOk (l, lru, el) => f_loop A c b merge trial n l lru el (S index)
      | IrErr => IrErr
      | IrPanic => IrPanic
      end
  end.
(** ir_optimize, src/ir_optimize/mod.rs:112-286: [lru] are the distances of the codec that
    will write the commands; the trial coder is new *)
Definition f_optimize (A : arith) (b : Z) (merge : nat -> option bool) (trial : nat -> bool) (lru : list Z) (l : list icmd) : ir_result (list icmd) :=
  match l with
  | [] => IrOk []
  | _ =>
      match f_loop A (populate_all (fcache_new lru (length l)) l 0) b merge trial (length l - 1) l lru_new 0 1 with
      | IrOk l => if trial 0%nat then let '(l, el) := ir_compact (length l) l 0 0 in IrOk (firstn el l) else IrErr
      | e => e
      end
  end.
