(** The decompressor, and the round trip from commands to decompressed bytes. *)
From Verif Require Import Prelude ProofList ModelAns SpecAns ModelCdf SpecCdf ModelRecode SpecLz ModelMux SpecMux ProofZlist ProofMux ProofMuxW ModelCmd ModelCrc SpecCrc ModelHeader SpecHeader ProofHeader ModelPriors ModelCodec ModelLit ModelPm ModelTop SpecCodec SpecReplay SpecFile ModelEnc ProofEnc3 ProofEnc4 ThmCodec ThmEnc ModelDec SpecEnc SpecDec ProofDec6 ProofDec7.

(** C27, decompressing.  [T] is any complete file for the commands [cmds] (any framing of
    their two streams); [tail] is anything that may follow it.  Whatever the pieces in
    which the input arrives and whatever the sizes of the output buffers (empty ones
    included), the decompressor does not panic, fail, overrun a buffer, or ask for input
    or space it still has.  What it has put out is always a beginning of the bytes the
    commands stand for; when it reports success it is all of them, and exactly the file
    has been consumed.  And it does report success: once the whole file has been offered,
    within one call more than there are bytes to put out, if each offers some space. *)
Theorem C27_decode_any_file : forall dict wl D g ws cmds a b skip,
  big D -> cfg_ok g -> 10 <= ws <= 24 -> acceptable dict wl D g ws cmds -> streams_of dict wl D g ws cmds a b ->
  exists fuel0, forall T tail fuel calls future, (fuel0 <= fuel)%nat -> is_file ws a b T -> bytes tail ->
    offered calls ++ future = T ++ tail -> Forall (fun c => 0 <= snd c) calls ->
  exists o rest v, dsession dict wl D skip fuel decompressor_new [] calls = Some (o, rest, v) /\ v <> Broken /\
    (exists more, meaning dict (window ws) cmds = o ++ more) /\
    (v = Finished -> o = meaning dict (window ws) cmds /\ offered calls = T ++ rest) /\
    (forall calls1 calls2 x, calls = calls1 ++ calls2 -> offered calls1 = T ++ x -> Forall (fun c => 1 <= snd c) calls2 ->
       zlen (meaning dict (window ws) cmds) < zlen calls2 -> v = Finished).
Proof.
  intros dict wl D g ws cmds a b skip B G WS AC ST.
  assert (BAB : bytes a /\ bytes b). { destruct ST as (f & c & es & _ & W & EA & EB). split; [exact (BA es a W EA)|exact (ProofEnc4.BB es b W EB)]. }
  destruct (start dict wl D skip ws WS g cmds a b B G AC ST) as (N & H). exists N. intros T tail fuel calls future F (W & FRM & _ & ->) BT EI RM.
  assert (BH : bytes (make_header ws)) by (apply header_bytes; unfold byte; lia).
  pose proof (framing_framed _ _ _ FRM) as FR.
  assert (BW : bytes W). { destruct FR as (fs & GG & -> & P0 & P1). apply bytes_app; [apply enc_bytes; [exact GG|rewrite P0; apply BAB|rewrite P1; apply BAB]|]. apply Forall_cons; [unfold byte; lia|]. apply Forall_cons; [unfold byte; lia|]. apply Forall_cons; [unfold byte; lia|]. apply Forall_nil. }
  destruct (H W FR BW _ eq_refl) as (n & ci & ces & outsW & les & PV & CO). set (Tr := trailer (crc32c 0 (make_header ws ++ W))) in *.
  assert (AS : starts dict wl D skip ws W Tr (meaning dict (window ws) cmds) N) by (exists n, (pm_new D), ci, ces, outsW, a, b, les; split; [exact PV|exact CO]).
  assert (BTr : bytes Tr).
  { unfold Tr, trailer. apply Forall_app. split; [apply le_bytes|]. apply Forall_cons; [unfold byte; lia|]. apply Forall_cons; [unfold byte; lia|]. apply Forall_cons; [unfold byte; lia|]. apply Forall_cons; [unfold byte; lia|]. apply Forall_nil. }
  destruct (dsession_good dict wl D skip ws WS W Tr (meaning dict (window ws) cmds) N eq_refl AS fuel tail F BT calls decompressor_new (make_header ws ++ W ++ Tr) [] [] future) as (o & left & v & E & NB & PF & FI & LV).
  - exists [], (make_header ws). split; [exact hp_new_inv|]. repeat split.
  - apply bytes_app; [exact BH|]. apply bytes_app; [exact BW|exact BTr].
  - exact EI.
  - right. exact Logic.I.
  - exact RM.
  - exists o, left, v. split; [exact E|]. split; [exact NB|]. split; [exact PF|]. split; [exact FI|].
    intros calls1 calls2 x EC EX R1 LL. apply (LV calls1 calls2 x EC EX R1). change (zlen (@nil Z)) with 0. lia.
Qed.

(** C27, end to end.  Commands given to a compressor in any batches, with output buffers
    of any sizes; the file it has put out when flush reports success given to a
    decompressor in any pieces, with output buffers of any sizes: the decompressor puts
    out a beginning of what the commands stand for, and all of it when it reports
    success, which it does when offered the whole file and enough space. *)
Theorem C27_end_to_end : forall dict wl D g opt cmds skip, big D -> cfg_ok g -> acceptable dict wl D g (choose_window opt) cmds ->
  exists fuel0 calls0, forall fuel batches rooms, (fuel0 <= fuel)%nat ->
    concat batches = cmds -> Forall (fun b => b <> []) batches -> Forall (fun r => 0 <= r) rooms ->
  exists T v, session dict wl D g fuel (compressor_new D opt) batches rooms = Some (T, v) /\ v <> Broken /\
    (Forall (fun r => 1 <= r) rooms -> calls0 + zlen batches < zlen rooms -> v = Finished) /\
    (v = Finished -> forall calls future, offered calls ++ future = T -> Forall (fun c => 0 <= snd c) calls ->
       exists o rest v, dsession dict wl D skip fuel decompressor_new [] calls = Some (o, rest, v) /\ v <> Broken /\
         (exists more, meaning dict (window (choose_window opt)) cmds = o ++ more) /\
         (v = Finished -> o = meaning dict (window (choose_window opt)) cmds /\ future = [] /\ rest = []) /\
         (forall calls1 calls2, calls = calls1 ++ calls2 -> offered calls1 = T -> Forall (fun c => 1 <= snd c) calls2 ->
            zlen (meaning dict (window (choose_window opt)) cmds) < zlen calls2 -> v = Finished)).
Proof.
  intros dict wl D g opt cmds skip B G AC. destruct (C28_streams_exist dict wl D g _ cmds B G AC) as (a & b & ST & _).
  destruct (C28_every_schedule dict wl D g opt cmds a b B G AC ST) as (f1 & H1).
  assert (WS : 10 <= choose_window opt <= 24) by (unfold choose_window; lia).
  destruct (C27_decode_any_file dict wl D g _ cmds a b skip B G WS AC ST) as (f2 & H2).
  exists (max f1 f2), (4 * (zlen a + zlen b) + 27). intros fuel batches rooms F CB NB RM.
  destruct (H1 fuel batches rooms ltac:(lia) CB NB RM) as (T & v & S & NBR & FI & LV). exists T, v. split; [exact S|]. split; [exact NBR|]. split; [intros R1 L; apply LV; [exact R1|unfold zlen in *; lia]|].
  intros FN calls future EI RC. destruct (H2 T [] fuel calls future ltac:(lia) (FI FN) ltac:(constructor) ltac:(rewrite app_nil_r; exact EI) RC) as (o & rest & v2 & E2 & NB2 & P2 & F2 & L2).
  exists o, rest, v2. split; [exact E2|]. split; [exact NB2|]. split; [exact P2|]. split.
  - intros X. destruct (F2 X) as (O & OT). split; [exact O|]. rewrite OT, <- app_assoc in EI. rewrite <- (app_nil_r T) in EI at 2. apply app_inv_head in EI. apply app_eq_nil in EI. destruct EI as (R0 & FU). split; [exact FU|exact R0].
  - intros calls1 calls2 EC EO R1 LL. apply (L2 calls1 calls2 [] EC); [rewrite app_nil_r; exact EO|exact R1|exact LL].
Qed.

(** A case: the hypotheses are those of [C28_case]; the 77-byte file of [C28_run], offered
    seven bytes at a time with room for three, gives back the bytes. *)
Fixpoint pieces (fuel : nat) (n : nat) (room : Z) (l : list Z) : list (list Z * Z) :=
  match fuel with O => [] | S fuel => (firstn n l, room) :: pieces fuel n room (skipn n l) end.
Example C27_case : exists T o, session demo_dict demo_wl (DIMS 4 4 4) demo_cfg 200 (compressor_new (DIMS 4 4 4) (Some 3)) demo_batches (repeat 5 40) = Some (T, Finished) /\
  dsession demo_dict demo_wl (DIMS 4 4 4) false 1000 decompressor_new [] (pieces 60 7 3 T) = Some (o, [], Finished) /\ o = meaning demo_dict (window 10) (concat demo_batches) /\ 8 < zlen o.
Proof. eexists _, _. split; [vm_compute; reflexivity|]. split; [vm_compute; reflexivity|]. split; vm_compute; reflexivity. Qed.
Print Assumptions C27_decode_any_file.
Print Assumptions C27_end_to_end.
