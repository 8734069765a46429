(** Model of the prior tables: src/priors.rs (the macros) and src/codec/priors.rs (the
    tables themselves).  [None] = a debug assertion or slice bound fails. *)
From Verif Require Import Prelude.

(** the billing enums of src/codec/priors.rs and CrossCommandBilling of src/interface.rs *)
Inductive billing :=
| FullSelection | EndIndicator
| LitCountSmall | LitSizeBegNib | LitSizeLastNib | LitSizeMantissaNib
| DistanceBegNib | DistanceMnemonic | DistanceLastNib | DistanceMantissaNib
| CountSmall | CountBegNib | CountLastNib | CountMantissaNib
| SizeBegNib | SizeLastNib | Index | Transform
| BtMnemonic | BtFirstNibble | BtSecondNibble | BtStrideNibble
| PmOnly | PmLiteralSpeed | PmFirstNibble | PmSecondNibble | PmMnemonic | PmPriorMixingValue
| PmContextMapSpeedPalette | PmDynamicContextMixingSpeed | PmPriorDepth
| CombinedNibble
| CmFirstNibble | CmSecondNibble.
Scheme Equality for billing.

(** one table per define_prior_struct! in src/codec/priors.rs:12-133 *)
Inductive coll := CcP | LitLenP | CopyP | DictP | BtypeP | PredP | LitHighP | LitLowP | LitCmP.
Scheme Equality for coll.
Definition NUM_BLOCK_TYPES : Z := 256.
Definition layout (c : coll) : list (billing * list Z) :=
  match c with
  | CcP => [(FullSelection, [16; 1]); (EndIndicator, [1; 256])]
  | LitLenP => [(LitCountSmall, [256; 16]); (LitSizeBegNib, [256]); (LitSizeLastNib, [256]); (LitSizeMantissaNib, [256])]
  | CopyP => [(DistanceBegNib, [256; 64]); (DistanceMnemonic, [256; 2]); (DistanceLastNib, [256; 1]);
              (DistanceMantissaNib, [256; 5]); (CountSmall, [256; 64]); (CountBegNib, [256; 64]);
              (CountLastNib, [256; 64]); (CountMantissaNib, [256; 64])]
  | DictP => [(SizeBegNib, [256]); (SizeLastNib, [256]); (Index, [256; 5]); (Transform, [2; 25])]
  | BtypeP => [(BtMnemonic, [3]); (BtFirstNibble, [3]); (BtSecondNibble, [3]); (BtStrideNibble, [1])]
  | PredP => [(PmOnly, [1]); (PmLiteralSpeed, [1]); (PmFirstNibble, [2]); (PmSecondNibble, [2]);
              (PmMnemonic, [4]); (PmPriorMixingValue, [17]); (PmContextMapSpeedPalette, [4])]
  | LitHighP | LitLowP => [(CombinedNibble, [3; 256; 256])]
  | LitCmP => [(CmFirstNibble, [1; 256]); (CmSecondNibble, [1; 16; 256])]
  end.

(** product!, sum_product_cdr! (NUM_ALL_PRIORS), src/priors.rs:236-247 *)
Definition product (dims : list Z) : Z := fold_right Z.mul 1 dims.
Definition num_all (lay : list (billing * list Z)) : Z := fold_right (fun e a => product (snd e) + a) 0 lay.
(** linearize_index!, src/priors.rs:204-218: least significant dimension first; the
    numbers of dimensions are compared by the debug assertion of [get] (113-116) *)
Fixpoint linearize (dims ix : list Z) : option Z :=
  match dims, ix with
  | [], [] => Some 0
  | d :: dims, i :: ix =>
      assert ((0 <=? i) && (i <? d)) (let? r := linearize dims ix in Some (i + d * r))
  | _, _ => None
  end.
(** define_prior_struct_helper_collapse_index!, src/priors.rs:220-231: the last entry
    of the table is the answer for every billing type not listed *)
Fixpoint collapse (lay : list (billing * list Z)) (b : billing) (ix : list Z) : option Z :=
  match lay with
  | [] => None
  | [(_, dims)] => linearize dims ix
  | (t, dims) :: rest =>
      if billing_beq b t then linearize dims ix
      else let? r := collapse rest b ix in Some (product dims + r)
  end.
(** get, src/priors.rs:111-121 *)
Definition prior_index (c : coll) (b : billing) (ix : list Z) : option Z :=
  let? i := collapse (layout c) b ix in
  assert (i <? num_all (layout c)) (Some i).
