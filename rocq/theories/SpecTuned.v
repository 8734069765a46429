(** What the optimiser expects of brotli's encoder. *)
From Verif Require Import Prelude ModelMux ModelCmd ModelRecode SpecLz ModelIr SpecIr ModelPriors ModelCodec ModelPm ModelTop SpecFile ModelIo ModelHybrid SpecHybrid ModelTuned.

(** The metablocks, one after the other from history [h] on, describe input: a literal
    names the place in the input pair that the output has reached and does not cross from
    one half to the other; the cost model does not fail. *)
Fixpoint described (dict : dict_fn) (h : list Z) (ms : list iblock) : Prop :=
  match ms with
  | [] => True
  | m :: ms =>
      (exists pos, 0 <= pos /\ describes dict (i_inp m) pos h (i_cmds m)) /\ unsplit (i_half m) (i_cmds m) /\
      bytes (i_inp m) /\ 0 <= i_half m <= zlen (i_inp m) /\ zlen (i_inp m) <= 2 ^ 30 /\
      (forall i, i_merge m i <> None) /\ (forall i, i_trial m i = true) /\
      described dict (h ++ ir_meaning dict (i_inp m) h (i_cmds m)) ms
  end.
(** The encoder keeps the contract of C61 with the optimiser switched off, and its
    metablocks describe input. *)
Record good_source dict wl D g ws {B} (fe : ifrontend B) (b0 : B) : Prop := {
  gs_good : good_frontend dict wl D g ws (prepared false fe) Some b0;
  gs_faithful : faithful dict ws (prepared false fe) Some b0;
  gs_described : forall b x cmds fin input room k w ms b', reaches (prepared false fe) Some b0 b x cmds -> ib_finished fe b = false ->
    (fin = true -> input = []) -> bytes input -> 256 <= room -> ib_step fe b fin input room = Some (k, w, ms, b') ->
    described dict (window ws ++ meaning dict (window ws) cmds) ms }.
