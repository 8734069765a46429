(** Model of src/codec/crc32.rs (the portable implementation; the SSE variant is
    feature-gated and not modelled). *)
From Verif Require Import Prelude ModelCrcTable.

(** TABLE16[k][i], src/codec/crc32_table.rs *)
Definition tab (k : nat) (i : Z) : Z := nth (Z.to_nat i) (nth k TABLE16 []) 0.
(** Rust [!x] on u32 *)
Definition not32 (x : Z) : Z := Z.lxor x (2 ^ 32 - 1).
(** [x as u8] *)
Definition as_u8 (x : Z) : Z := Z.land x 255.

(** crc32c_init, src/codec/crc32.rs:17-19 *)
Definition crc32c_init : Z := 0.

(** The tail loop, src/codec/crc32.rs:60-62 *)
Fixpoint crc_tail (crc : Z) (buf : list Z) : Z :=
  match buf with
  | [] => crc
  | b :: buf => crc_tail (Z.lxor (tab 0 (Z.lxor (as_u8 crc) b)) (Z.shiftr crc 8)) buf
  end.

(** One 16 byte block, src/codec/crc32.rs:41-57; [buf i] is buf[i] *)
Definition crc_block (crc : Z) (buf : nat -> Z) : Z :=
  let crc := Z.lxor crc (Z.lor (Z.lor (Z.lor (buf 0%nat) (Z.shiftl (buf 1%nat) 8))
                                      (Z.shiftl (buf 2%nat) 16)) (Z.shiftl (buf 3%nat) 24)) in
  Z.lxor (Z.lxor (Z.lxor (Z.lxor (Z.lxor (Z.lxor (Z.lxor (Z.lxor (Z.lxor (Z.lxor (Z.lxor (Z.lxor
  (Z.lxor (Z.lxor (Z.lxor
    (tab 0 (buf 15%nat)) (tab 1 (buf 14%nat))) (tab 2 (buf 13%nat))) (tab 3 (buf 12%nat)))
    (tab 4 (buf 11%nat))) (tab 5 (buf 10%nat))) (tab 6 (buf 9%nat))) (tab 7 (buf 8%nat)))
    (tab 8 (buf 7%nat))) (tab 9 (buf 6%nat))) (tab 10 (buf 5%nat))) (tab 11 (buf 4%nat)))
    (tab 12 (as_u8 (Z.shiftr crc 24)))) (tab 13 (as_u8 (Z.shiftr crc 16))))
    (tab 14 (as_u8 (Z.shiftr crc 8)))) (tab 15 (as_u8 crc)).

(** The loop over blocks and then the tail, src/codec/crc32.rs:40-62; the
    recursion counter is the buffer length, which never runs out first. *)
Fixpoint crc_loop (fuel : nat) (crc : Z) (buf : list Z) : Z :=
  match fuel with
  | O => crc_tail crc buf
  | S fuel =>
      if (16 <=? length buf)%nat then crc_loop fuel (crc_block crc (fun i => nth i buf 0)) (skipn 16 buf)
      else crc_tail crc buf
  end.
Definition crc_blocks (crc : Z) (buf : list Z) : Z := crc_loop (length buf) crc buf.

(** fallback_crc32c_update / crc32c_update, src/codec/crc32.rs:20-24,38-64 *)
Definition crc32c_update (crc : Z) (buf : list Z) : Z := not32 (crc_blocks (not32 crc) buf).
