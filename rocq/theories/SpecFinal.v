(** What a caller sees of a decompressor over several calls, whatever the calls return:
    used by C71. *)
From Verif Require Import Prelude ModelCmd ModelRecode ModelPriors ModelCodec ModelPm ModelTop ModelDec SpecAns.

(** one call: what was offered, and what came back *)
Record call := CALL { c_input : list Z; c_room : Z; c_consumed : Z; c_output : list Z; c_verdict : dres }.
(** a run of calls on one decompressor; the caller may go on after any verdict, and what
    is offered to one call need not have to do with what the one before left over *)
Inductive history (dict : dict_fn) (wl : word_len_fn) (D : dims) (skip : bool) : decompressor -> list call -> decompressor -> Prop :=
| H_none d : history dict wl D skip d [] d
| H_call d fuel input room n o r d1 cs d2 : bytes input -> 0 <= room ->
    decode dict wl D skip fuel d input room = Some (n, o, d1, r) -> history dict wl D skip d1 cs d2 ->
    history dict wl D skip d (CALL input room n o r :: cs) d2.
(** the call took nothing, gave nothing and said it was over *)
Definition over (c : call) : Prop := c_consumed c = 0 /\ c_output c = [] /\ c_verdict c = DSuccess.
(** sixteen bytes that begin no file *)
Definition no_header (B : list Z) : Prop := length B = 16%nat /\
  ~ (firstn 4 B = [255; 229; 140; 159] /\ 10 <= nth 5 B 0 <= 24).
