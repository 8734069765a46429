(** Specification vocabulary for C29: what the command decoder does with nibbles that no
    encoder wrote. *)
From Verif Require Import Prelude ModelAns ModelCdf SpecCdf ModelMux ModelCmd ModelPriors ModelCodec ModelLit ModelPm ModelTop SpecCodec.

(** why a decoder stops: the end marker, one of the streams is used up, an error return,
    a panic, or one of the three hazards described below *)
Inductive stop := AtEnd | Needs (st : stream) | Fails (e : err) | HugeCopy | HugeLiteral | WildSpeeds | Panics.

(** A prediction mode announces two speeds for each half of a literal byte.  A stored
    pair of codes is usable if it decodes and the speed keeps distributions in range. *)
Definition usable (p : Z * Z) : bool :=
  match speed_of_f8 p with Some (inc, lim) => (0 <=? inc) && (inc <=? 5444) && (lim <=? 16384) | None => false end.
Definition usable_speeds (p : predmode) : bool :=
  usable (nth_pair (stride_f8 p) 0) && usable (nth_pair (stride_f8 p) 1) &&
  usable (nth_pair (cm_f8 p) 0) && usable (nth_pair (cm_f8 p) 1).

(** ** Commands a reader of the decoder's output can rely on *)
Definition u32 (x : Z) : Prop := 0 <= x < 2 ^ 32.
Definition sane_pm (D : dims) (p : predmode) : Prop :=
  bytes (lit_map p) /\ zlen (lit_map p) = n_lit D /\ bytes (dist_map p) /\ zlen (dist_map p) = n_dist D /\
  Forall nibble (mixing p) /\ zlen (mixing p) = n_mix D /\
  0 <= pm_mode p < 4 /\ 0 <= pm_math p < 4 /\ 0 <= pm_adv p < 4 /\ usable_speeds p = true.
Definition sane_command (D : dims) (c : command) : Prop :=
  match c with
  | Copy d n => u32 d /\ u32 n
  | Dict ws wid tr fs => 4 <= ws <= 24 /\ 0 <= wid < 2 ^ round_up_mod_4 (znth DICT_BITS ws) /\ 0 <= tr < 121 /\ byte fs
  | Literal data _ => bytes data /\ 1 <= zlen data < 2 ^ 31
  | BlockSwitchLiteral t s => byte t /\ nibble s
  | BlockSwitchCommand t | BlockSwitchDistance t => byte t
  | PredictionMode p => sane_pm D p
  end.

Section Run.
Context {R : Type} (RR : replayer R) (wl : word_len_fn) (D : dims).
(** Hazards met when reading a nibble.  The second length nibble of a copy is 14 or 15,
    announcing 2^32 bytes or more: the code shifts 1 by 32 bits.  The last length nibble
    of a literal makes it 2^31 bytes or longer: the code counts its nibbles in 32 bits. *)
Definition hazard (c : codec R) (v : Z) : option stop :=
  match k_st c with
  | TCopy s => match c_sub s with CCountGreater18 => if 14 <=? v then Some HugeCopy else None | _ => None end
  | TLit s => match l_sub s with
              | LCountMant lr dsf => if (lr =? 4) && (2 ^ 31 <=? Z.lor dsf v + 15) then Some HugeLiteral else None
              | _ => None end
  | _ => None
  end.
(** The third: a complete prediction mode command with an unusable speed. *)
Definition wild (c : codec R) : bool :=
  match k_st c with TPm PmFully => (pm_mode (k_pm c) <? 4) && negb (usable_speeds (k_pm c)) | _ => false end.
(** The decoder on two streams of nibbles, command after command: the commands it
    reports, the nibbles it reads (with the distribution under which each was read), why
    it stops and what is left.  With [guard] it stops as soon as a hazard is met; without,
    it is the decoder as it is.  [None]: out of fuel. *)
Fixpoint dec_run (guard : bool) (fuel : nat) (c : codec R) (q : chan) : option (list command * list ev * stop * chan) :=
  match fuel with
  | O => None
  | S fuel =>
      if guard && wild c then Some ([], [], WildSpeeds, q) else
      match top_node RR wl D c with
      | NCode st d k =>
          match take q st with
          | None => Some ([], [], Needs st, q)
          | Some (v, q) =>
              match (if guard then hazard c v else None), k v with
              | Some h, _ => Some ([], [Ev st d v], h, q)
              | None, Next c' => let? '(xs, es, w, q) := dec_run guard fuel c' q in Some (xs, Ev st d v :: es, w, q)
              | None, Err e => Some ([], [Ev st d v], Fails e, q)
              | None, Panic => Some ([], [Ev st d v], Panics, q)
              end
          end
      | NSilent (Next c') => dec_run guard fuel c' q
      | NSilent (Err e) => Some ([], [], Fails e, q)
      | NSilent Panic => Some ([], [], Panics, q)
      | NAdvance c' x => let? '(xs, es, w, q) := dec_run guard fuel c' q in Some (x :: xs, es, w, q)
      | NEnd => Some ([], [], AtEnd, q)
      end
  end.
End Run.
(** any nibbles at all *)
Definition any_nibbles (q : chan) : Prop := Forall nibble (ch_cmd q) /\ Forall nibble (ch_lit q).
Definition nibbles_in (q : chan) : nat := length (ch_cmd q) + length (ch_lit q).
