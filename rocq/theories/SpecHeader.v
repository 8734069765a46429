(** Callers that use the header and trailer code with arbitrary buffer sizes. *)
From Verif Require Import Prelude ModelCrc ModelHeader.

Definition total_cap (caps : list nat) : nat := fold_right Nat.add 0%nat caps.

(** offer output buffers of sizes [caps] until the header is written; returns all
    bytes, the checksum, and whether it was completed *)
Fixpoint write_header_all (progress : nat) (ws : Z) (crc : Z) (caps : list nat) : list Z * Z * bool :=
  match caps with
  | [] => ([], crc, false)
  | a :: caps =>
      match write_header progress ws a crc with
      | (out, _, crc, OSuccess) => (out, crc, true)
      | (out, progress, crc, ONeedsMoreOutput) =>
          let '(rest, crc, ok) := write_header_all progress ws crc caps in (out ++ rest, crc, ok)
      end
  end.

(** feed [pieces] until the parser decides; returns the result and bytes consumed *)
Fixpoint parse_all (p : hdr_parser) (pieces : list (list Z)) : hdr_result * nat :=
  match pieces with
  | [] => (HNeedsMoreInput, 0%nat)
  | x :: pieces =>
      match hp_decode p x with
      | (p, n, HNeedsMoreInput) => let '(r, m) := parse_all p pieces in (r, (n + m)%nat)
      | (_, n, r) => (r, n)
      end
  end.

(** the trailer of the file format *)
Definition trailer (crc : Z) : list Z := le 4 crc ++ [97; 110; 115; 126].

Fixpoint write_trailer_all (crc : Z) (count : nat) (caps : list nat) : list Z * bool :=
  match caps with
  | [] => ([], false)
  | a :: caps =>
      match write_checksum crc count a with
      | (out, _, OSuccess) => (out, true)
      | (out, count, ONeedsMoreOutput) =>
          let '(rest, ok) := write_trailer_all crc count caps in (out ++ rest, ok)
      end
  end.

(** feed the bytes after the end marker in [pieces], then check *)
Definition read_trailer_all (pieces : list (list Z)) : list Z :=
  fold_left (fun got x => fst (read_trailer got x)) pieces [].
