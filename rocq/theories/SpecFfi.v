(** Specification vocabulary for C40. *)
From Verif Require Import Prelude ModelFfi.

(** the documented selectors and, for the enumerated ones, their values *)
Definition valid_option (sel v : Z) : Prop :=
  1 <= sel <= 20 /\
  (sel = 5 -> v <= 2) /\ (sel = 6 -> v = 1) /\ (sel = 7 -> v <= 1) /\ (sel = 9 -> v <= 8) /\
  (sel = 8 \/ sel = 12 \/ sel = 13 \/ sel = 14 -> v <= 14).

(** the settings a caller can influence, one by one *)
Inductive setting :=
| Quality | WindowSize | LgBlock | Mixing | CommandSelection | UseContextMap | StrideValue
| StrideQuality | PriorDepth | ByteScore | SpeedQuality | Bitmask | Q95 | ContextMode | IrOptimizer
| Adapt (k : nat).
Inductive value := VNone | VNum (z : Z) | VPair (p : Z * Z).
Definition of_opt (o : option Z) : value := match o with None => VNone | Some z => VNum z end.
Definition of_bool (b : bool) : value := VNum (if b then 1 else 0).
Definition read (o : opts) (s : setting) : value :=
  match s with
  | Quality => of_opt (o_quality o)
  | WindowSize => of_opt (o_window_size o)
  | LgBlock => of_opt (o_lgblock o)
  | Mixing => of_opt (o_mixing o)
  | CommandSelection => VNum match o_use_brotli o with
      UseInternalCommandSelection => 0 | UseBrotliCommandSelection => 1 | UseBrotliBitstream => 2 end
  | UseContextMap => of_bool (o_context_map o)
  | StrideValue => match o_stride o with Stride k => VNum k | UseBrotliRec => VNone end
  | StrideQuality => of_opt (o_stride_quality o)
  | PriorDepth => of_opt (o_prior_depth o)
  | ByteScore => of_opt (o_byte_score o)
  | SpeedQuality => of_opt (o_speed_quality o)
  | Bitmask => VNum (o_bitmask o)
  | Q95 => of_bool (o_q9_5 o)
  | ContextMode => of_opt (o_context_mode o)
  | IrOptimizer => VNum (o_ir o)
  | Adapt k => match o_literal_adaptation o with
      | None => VNone
      | Some a => match nth_error a k with Some p => VPair p | None => VNone end
      end
  end.
(** which setting a selector is about, and the value it asks for (values that
    do not fit the setting's machine type are truncated) *)
Definition target (sel : Z) : option setting :=
  nth_error [Quality; WindowSize; LgBlock; Mixing; CommandSelection; CommandSelection; UseContextMap;
             Adapt 3; StrideValue; StrideQuality; PriorDepth; Adapt 1; Adapt 2; Adapt 0; ByteScore;
             SpeedQuality; Bitmask; Q95; ContextMode; IrOptimizer] (Z.to_nat (sel - 1)).
Definition requested (sel v : Z) : value :=
  match target sel with
  | Some Quality => VNum (v mod 65536)
  | Some WindowSize => VNum (if v <? 2147483648 then v else v - 4294967296)
  | Some LgBlock | Some ByteScore | Some UseContextMap | Some StrideValue => VNum v
  | Some CommandSelection => VNum (if sel =? 6 then 2 else v)
  | Some Q95 => VNum (if v mod 256 =? 0 then 0 else 1)
  | Some (Adapt _) => VPair (nth (Z.to_nat v) PALETTE (0, 0))
  | _ => VNum (v mod 256)
  end.
Definition adapt_ok (o : opts) : Prop :=
  match o_literal_adaptation o with None => True | Some a => length a = 4%nat end.

(** what a successful set_option does: the named setting gets the requested
    value and nothing else changes, except that the first literal adaptation
    set gives all four that value *)
Definition set_effect (o : opts) (sel v : Z) (o' : opts) : Prop :=
  exists t, target sel = Some t /\
    read o' t = requested sel v /\
    (forall t', t' <> t ->
       read o' t' = read o t' \/
       (o_literal_adaptation o = None /\ (exists k, t = Adapt k) /\ (exists k, t' = Adapt k /\ (k < 4)%nat) /\
        read o' t' = requested sel v)) /\
    adapt_ok o'.

(** ** histories of calls *)
Section Hist.
Context {X A : Type}.
(** a call that reaches the compressor *)
Definition reaches (c : call A) : bool :=
  match c with
  | CEnc p1 p2 p3 _ => p1 && p2 && p3
  | CFlush p1 p2 _ => p1 && p2
  | CSet _ _ _ => false
  end.
(** the options after the accepted settings made before the first such call *)
Fixpoint options_of (o : opts) (h : list (call A)) : opts :=
  match h with
  | [] => o
  | c :: h =>
      if reaches c then o else
      options_of match c with
                 | CSet true sel v => match set_option_match o sel v with Some o' => o' | None => o end
                 | _ => o
                 end h
  end.
(** the compressor after those calls, and its answers *)
Fixpoint drive (enc fl : X -> A -> dres * X) (x : X) (h : list (call A)) : list dres * X :=
  match h with
  | [] => ([], x)
  | c :: h =>
      if reaches c then
        let '(r, x) := match c with CEnc _ _ _ a => enc x a | CFlush _ _ a => fl x a | _ => (RFailure, x) end in
        let '(rs, x) := drive enc fl x h in (r :: rs, x)
      else drive enc fl x h
  end.
(** the return codes of the calls that reached the compressor, and of the rest *)
Fixpoint codes_of (reached : bool) (h : list (call A)) (codes : list Z) : list Z :=
  match h, codes with
  | c :: h, k :: codes => if Bool.eqb (reaches c) reached then k :: codes_of reached h codes else codes_of reached h codes
  | _, _ => []
  end.
End Hist.
