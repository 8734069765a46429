(** Specification vocabulary for the command coder (C20-C26): the streams of nibbles an
    encoder writes and a decoder reads, and which commands can be encoded. *)
From Verif Require Import Prelude ModelAns ModelCdf SpecCdf ModelMux ModelCmd ModelPriors ModelCodec ModelLit ModelPm ModelTop.

(** One coded nibble: on which stream, with which distribution, which value. *)
Record ev := Ev { e_st : stream; e_cdf : list Z; e_val : Z }.
Definition on (st : stream) (e : ev) : bool := match st, e_st e with CMD, CMD | LIT, LIT => true | _, _ => false end.
(** what is written to one stream *)
Definition vals (st : stream) (es : list ev) : list Z := map e_val (filter (on st) es).
(** the two nibble streams a decoder reads from *)
Record chan := CH { ch_cmd : list Z; ch_lit : list Z }.
Definition take (q : chan) (st : stream) : option (Z * chan) :=
  match st with
  | CMD => match ch_cmd q with v :: l => Some (v, CH l (ch_lit q)) | [] => None end
  | LIT => match ch_lit q with v :: l => Some (v, CH (ch_cmd q) l) | [] => None end
  end.
Definition chan_of (es : list ev) (rest : chan) : chan := CH (vals CMD es ++ ch_cmd rest) (vals LIT es ++ ch_lit rest).

Section Run.
Context {R : Type} (RR : replayer R) (wl : word_len_fn) (D : dims).
(** The encoder on one command (or, with [is_end], on the end marker): the state after
    it, the command as recorded by the coder ([None] for the end marker) and the nibbles
    written.  [None]: error, panic, a value that is no nibble, or out of fuel. *)
Fixpoint enc_cmd (fuel : nat) (g : cfg) (cmd : command) (is_end : bool) (c : codec R) : option (codec R * option command * list ev) :=
  match fuel with
  | O => None
  | S fuel =>
      match top_want g cmd is_end c with
      | Put v =>
          match top_node RR wl D c with
          | NCode st d k =>
              if (0 <=? v) && (v <? 16) then
                match k v with
                | Next c' => let? '(c2, x, es) := enc_cmd fuel g cmd is_end c' in Some (c2, x, Ev st d v :: es)
                | _ => None
                end
              else None
          | NSilent (Next c') => enc_cmd fuel g cmd is_end c'
          | NSilent _ => None
          | NAdvance c' x => Some (c', Some x, [])
          | NEnd => Some (c, None, [])
          end
      | _ => None
      end
  end.
(** The decoder: reads nibbles from the streams until a command (or the end marker) is
    complete. *)
Fixpoint dec_cmd (fuel : nat) (c : codec R) (q : chan) : option (codec R * option command * list ev * chan) :=
  match fuel with
  | O => None
  | S fuel =>
      match top_node RR wl D c with
      | NCode st d k =>
          let? '(v, q) := take q st in
          match k v with
          | Next c' => let? '(c2, x, es, q) := dec_cmd fuel c' q in Some (c2, x, Ev st d v :: es, q)
          | _ => None
          end
      | NSilent (Next c') => dec_cmd fuel c' q
      | NSilent _ => None
      | NAdvance c' x => Some (c', Some x, [], q)
      | NEnd => Some (c, None, [], q)
      end
  end.
(** A list of commands followed by the end marker. *)
Fixpoint enc_all (fuel : nat) (g : cfg) (cmds : list command) (c : codec R) : option (codec R * list command * list ev) :=
  match cmds with
  | [] => match enc_cmd fuel g (Copy 1 0) true c with Some (c, None, es) => Some (c, [], es) | _ => None end
  | cmd :: cmds =>
      match enc_cmd fuel g cmd false c with
      | Some (c, Some x, es) => let? '(c, xs, es2) := enc_all fuel g cmds c in Some (c, x :: xs, es ++ es2)
      | _ => None
      end
  end.
(** Decoding until the end marker; [n] bounds the number of commands. *)
Fixpoint dec_all (fuel n : nat) (c : codec R) (q : chan) : option (codec R * list command * list ev * chan) :=
  match n with
  | O => None
  | S n =>
      let? '(c, x, es, q) := dec_cmd fuel c q in
      match x with
      | None => Some (c, [], es, q)
      | Some x => let? '(c, xs, es2, q) := dec_all fuel n c q in Some (c, x :: xs, es ++ es2, q)
      end
  end.
End Run.

(** ** Encodable commands *)
(** context maps and mixing table at least as large as the decoder allocates them
    (src/codec/interface.rs, CrossCommandBookKeeping::new) *)
Definition big (D : dims) : Prop := 16384 <= n_lit D /\ 0 <= n_dist D /\ 8192 <= n_mix D.
(** speeds that survive their 7 bit serialisation and keep distributions codable *)
Definition sane_speed (s : Z * Z) : Prop := 0 <= fst s <= 5444 /\ (0 <= snd s < 12288 \/ snd s = 16384).
(** options as the encoder's constructor produces them *)
Definition cfg_ok (g : cfg) : Prop :=
  nibble (want_depth g) /\ nibble (want_stride g) /\ 0 <= want_mixing g < 8 /\
  match want_adapt g with Some a => Forall sane_speed a /\ zlen a = 4 | None => True end.
(** the nibble announcing the mixing mode, and whether mixing values are sent *)
Definition mixing_nibble (g : cfg) (p : predmode) : Z := Z.lor (want_mixing g) (Z.shiftl (pm_adv p) 3).
Definition sends_mixing (g : cfg) (p : predmode) : bool := want_cmap g && negb (mixing_nibble g p =? 0) && has_speeds p.
Definition pm_encodable (D : dims) (g : cfg) (p : predmode) : Prop :=
  0 <= pm_mode p < 4 /\ (pm_adv p = 0 \/ pm_adv p = 1) /\
  (exists speeds, desired_speeds g p = Some speeds /\ Forall sane_speed speeds /\ zlen speeds = 4) /\
  (want_cmap g = true -> bytes (lit_map p) /\ zlen (lit_map p) <= n_lit D /\
     bytes (src_map p true) /\ zlen (src_map p true) <= n_dist D /\ zlen (src_map p true) <= 1024) /\
  (sends_mixing g p = true -> Forall nibble (mixing p) /\ n_mix D <= zlen (mixing p)).
Definition encodable (D : dims) (g : cfg) (c : command) : Prop :=
  match c with
  | Copy d n => 1 <= d < 2 ^ 30 /\ 0 <= n < 2 ^ 32
  | Dict ws wid tr _ => 4 <= ws <= 24 /\ 0 <= wid < 2 ^ round_up_mod_4 (znth DICT_BITS ws) /\ 0 <= tr < 121
  | Literal data _ => bytes data /\ 1 <= zlen data <= 2 ^ 30 + 14
  | BlockSwitchLiteral t s => byte t /\ nibble s
  | BlockSwitchCommand t | BlockSwitchDistance t => byte t
  | PredictionMode p => pm_encodable D g p
  end.

(** ** What the decoder reports for an encodable command *)
(** the first entries of [old] replaced *)
Definition overlay (new old : list Z) : list Z := new ++ zskip (zlen new) old.
(** a speed after one trip through its 7 bit code, stored as a code *)
Definition f8_of (s : Z * Z) : Z * Z :=
  let w x := match u8_to_speed (Z.land (speed_to_u8 x) 127) with Some y => speed_to_u8 y | None => 0 end in
  (w (fst s), w (snd s)).
(** A decoded prediction mode keeps, beyond what was sent, the entries of the previous
    one ([old]). *)
Definition pm_coded (D : dims) (g : cfg) (old p : predmode) : predmode :=
  let speeds := match desired_speeds g p with Some s => s | None => [] end in
  PM (if want_cmap g then overlay (lit_map p) (lit_map old) else lit_map old)
     (if want_cmap g then overlay (src_map p true) (dist_map old) else dist_map old)
     (if sends_mixing g p then zfirst (n_mix D) (mixing p)
      else repeat (if want_cmap g then 0 else 4) (Z.to_nat (n_mix D)))
     (pm_mode p)
     (Z.land (mixing_nibble g p) 3) (Z.shiftr (mixing_nibble g p) 2)
     [f8_of (nth_pair speeds 0); f8_of (nth_pair speeds 1)] [f8_of (nth_pair speeds 2); f8_of (nth_pair speeds 3)]
     (comb_f8 old) (has_speeds old).
Definition coded (wl : word_len_fn) (D : dims) (g : cfg) (old : predmode) (c : command) : command :=
  match c with
  | Dict ws wid tr _ => Dict ws wid tr (wl ws wid tr mod 256)
  | BlockSwitchLiteral t s => BlockSwitchLiteral t (if want_stride g =? 9 then s else want_stride g)
  | PredictionMode p => PredictionMode (pm_coded D g old p)
  | _ => c
  end.
(** the prediction mode buffer after a command *)
Definition pm_after (D : dims) (g : cfg) (old : predmode) (c : command) : predmode :=
  match c with PredictionMode p => pm_coded D g old p | _ => old end.
Fixpoint coded_all (wl : word_len_fn) (D : dims) (g : cfg) (old : predmode) (cmds : list command) : list command :=
  match cmds with
  | [] => []
  | c :: cmds => coded wl D g old c :: coded_all wl D g (pm_after D g old c) cmds
  end.
(** The replay buffer accepts the commands that move data. *)
Definition moves_data (c : command) : bool := match c with Copy _ _ | Dict _ _ _ _ | Literal _ _ => true | _ => false end.
Fixpoint replay_to {R} (RR : replayer R) (r : R) (cmds : list command) : option R :=
  match cmds with
  | [] => Some r
  | c :: cmds => if moves_data c then match rpop RR r c with Next r' => replay_to RR r' cmds | _ => None end else replay_to RR r cmds
  end.

(** ** Coder states between commands *)
(** what a fresh coder becomes after any number of encodable, replayable commands, each
    with any legal options *)
Inductive reachable {R} (RR : replayer R) (wl : word_len_fn) (D : dims) : codec R -> Prop :=
| at_start r : reachable RR wl D (codec_new D r)
| after_cmd c g cmd fuel c' x es : reachable RR wl D c -> cfg_ok g -> encodable D g cmd ->
    (moves_data cmd = true -> exists r', rpop RR (k_rec c) (coded wl D g (k_pm c) cmd) = Next r') ->
    enc_cmd RR wl D fuel g cmd false c = Some (c', x, es) -> reachable RR wl D c'.
(** every nibble is written under a distribution that gives it, and all others, a
    positive range (so that C01 and C04 apply) *)
Definition writable (es : list ev) : Prop := Forall (fun e => codable (e_cdf e) /\ nibble (e_val e)) es.
(** The round trip of one command in one state: the encoder finishes, the decoder in the
    same state reading what was written (and then anything else) reports [result], takes
    exactly what was written, and ends in the same state. *)
Definition round_trips {R} (RR : replayer R) (wl : word_len_fn) (D : dims) (g : cfg) (c : codec R) (cmd result : command) : Prop :=
  exists fuel c' es, enc_cmd RR wl D fuel g cmd false c = Some (c', Some result, es) /\ writable es /\
    forall rest, dec_cmd RR wl D fuel c (chan_of es rest) = Some (c', Some result, es, rest).
