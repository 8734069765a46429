(** What the example program needs said about it. *)
From Verif Require Import Prelude ModelMux ModelDec ModelThread SpecThread ModelToolThread SpecText ModelExample.

(** pieces pushed one after the other *)
Fixpoint pushed (v : vec) (pieces : list (list Z)) : option vec :=
  match pieces with
  | [] => Some v
  | p :: pieces => let? v := push_vec v p in pushed v pieces
  end.
(** a new decompressor with one thread, or with two and any fair schedule of [r] rounds
    more than there are spurious wake-ups *)
Definition some_machine (r : Z) (m : machine) : Prop :=
  m = Alone decompressor_new \/
  exists rounds, m = Both (PS pdec_new false (concat rounds)) /\ Forall fair_round rounds /\ r + spurious (concat rounds) < zlen rounds.

(** what may follow an option that takes a number, and the number it stands for as a
    uint32_t: white space, a sign, digits *)
Definition option_text (n : Z) (t : list Z) : Prop :=
  exists space sign s m, t = space ++ sign ++ s /\ Forall (fun c => c = 32 \/ 9 <= c <= 13) space /\ numeral m s /\ m < 2 ^ 31 /\
    ((sign = [] \/ sign = [43]) /\ n = m \/ sign = [45] /\ (m = 0 /\ n = 0 \/ 0 < m /\ n = 2 ^ 32 - m)).
