(** Property theorems C11, C12 (checksum). *)
From Verif Require Import Prelude ModelCrc SpecCrc ProofCrc.

(** C11.  Table-driven updates over any split of the data compute the bit-wise
    CRC-32C of the concatenation. *)
Theorem C11_crc_is_crc32c : forall pieces crc, Forall bytes pieces -> 0 <= crc < 2 ^ 32 ->
  fold_left crc32c_update pieces crc = crc32c crc (concat pieces).
Proof. exact (fun ps c H C => crc_update_concat ps c H C). Qed.
Print Assumptions C11_crc_is_crc32c.
(** the standard check value of CRC-32C for "123456789" is 0xe3069283 *)
Example C11_check_value :
  crc32c_update crc32c_init [49; 50; 51; 52; 53; 54; 55; 56; 57] = 3808858755 /\
  crc32c crc32c_init [49; 50; 51; 52; 53; 54; 55; 56; 57] = 3808858755.
Proof. vm_compute. split; reflexivity. Qed.
Example C11_example : bytes [255; 0; 17] /\ 0 <= 3808858755 < 2 ^ 32.
Proof. split; [repeat constructor; unfold byte; lia|lia]. Qed.

(** C12.  Any difference confined to 32 consecutive bits changes the checksum. *)
Theorem C12_crc_detects_bursts : forall xs ys crc, bytes xs -> bytes ys -> 0 <= crc < 2 ^ 32 ->
  burst32 xs ys -> crc32c_update crc xs <> crc32c_update crc ys.
Proof. exact crc_burst. Qed.
Print Assumptions C12_crc_detects_bursts.
(** a burst of 32 bits straddling five bytes *)
Example C12_example : burst32 [1; 2; 3; 4; 5; 6] [1; 2 + 128; 3 + 4; 4 + 8; 5 + 32; 6 + 64].
Proof. split; [reflexivity|]. exists 15, 2151682057. split; [lia|]. split; [lia|]. vm_compute. reflexivity. Qed.
