(** The adapters over a processor that works as expected for a number of calls. *)
From Verif Require Import Prelude ProofList ModelMux ProofZlist ModelIo SpecIo ProofIo.

(** ** More rounds than needed change nothing *)
Section More.
Context {P : Type} (pr : processor P) (cap : Z).
Lemma read_loop_more : forall n k g room av needs out res, read_loop pr cap n g room av needs out = res -> res <> RSpin -> read_loop pr cap (n + k) g room av needs out = res.
Proof.
  induction n as [|n IH]; intros k g room av needs out res E NS; [cbn [read_loop] in E; congruence|]. cbn [Nat.add]. rewrite read_loop_eq in *. destruct (negb _); [exact E|]. destruct (fetch cap g av needs) as (((g1, av1), nd1), again). destruct again; [exact (IH k _ _ _ _ _ _ E NS)|].
  unfold after in *. destruct (if av1 =? 0 then _ else _) as [(((m, o), g2), r)|]; [|exact E]. destruct (_ || _); [exact E|]. cbv zeta in *. destruct ((av1 - m =? 0) && g_err g2); [exact E|].
  destruct r; [destruct (_ && _ && _); [exact E|]| | |exact E]; exact (IH k _ _ _ _ _ _ E NS).
Qed.
Lemma reads_more n k : forall rooms g cs h, reads pr cap n g rooms = (cs, h) -> h <> Hung -> reads pr cap (n + k) g rooms = (cs, h).
Proof.
  induction rooms as [|room rooms IH]; intros g cs h E NH; [exact E|]. cbn [reads] in *. unfold gread in *. destruct (read_loop pr cap n g room _ false []) as [o g'|g'| |] eqn:RL.
  - rewrite (read_loop_more n k _ _ _ _ _ _ RL) by discriminate. destruct (reads pr cap n g' rooms) as (cs1, h1) eqn:E1. assert (h1 = h) as -> by congruence. rewrite (IH g' cs1 h E1 NH). exact E.
  - rewrite (read_loop_more n k _ _ _ _ _ _ RL) by discriminate. exact E.
  - exfalso. apply NH. congruence.
  - rewrite (read_loop_more n k _ _ _ _ _ _ RL) by discriminate. exact E.
Qed.
Lemma write_loop_more : forall n k g total buf res, write_loop pr cap n g total buf = res -> res <> WSpin -> write_loop pr cap (n + k) g total buf = res.
Proof.
  induction n as [|n IH]; intros k g total buf res E NS; [cbn [write_loop] in E; congruence|]. cbn [Nat.add write_loop] in *. destruct (process pr (gw_p g) buf cap) as [(((m, o), p), r)|]; [|exact E]. destruct (_ || _); [exact E|]. cbv zeta in *.
  destruct (write_all (gw_sink g) o) as (s, ok). destruct (negb ok); [exact E|]. destruct r; [exact E|exact E| |exact E]. exact (IH k _ _ _ _ E NS).
Qed.
Lemma writes_more n k : forall bufs g g' h, writes pr cap n g bufs = (g', h) -> h <> Hung -> writes pr cap (n + k) g bufs = (g', h).
Proof.
  induction bufs as [|buf bufs IH]; intros g g' h E NH; [exact E|]. cbn [writes] in *. unfold gwrite in *. destruct (write_loop pr cap n g (zlen buf) buf) as [m g1|g1| |] eqn:WL.
  - rewrite (write_loop_more n k _ _ _ _ WL) by discriminate. destruct (m =? zlen buf); [exact (IH _ _ _ E NH)|exact E].
  - rewrite (write_loop_more n k _ _ _ _ WL) by discriminate. exact E.
  - exfalso. apply NH. congruence.
  - rewrite (write_loop_more n k _ _ _ _ WL) by discriminate. exact E.
Qed.
End More.

(** ** Two processors that agree for a number of calls *)
Section Two.
Context {A B : Type} (pa : processor A) (pb : processor B) (cap : Z) (rel : nat -> A -> B -> Prop).
Context (REL_le : forall n m a b, (n <= m)%nat -> rel m a b -> rel n a b).
Context (REL_proc : forall n a b i room, rel (S n) a b ->
  match process pa a i room, process pb b i room with Some (k1, o1, a', r1), Some (k2, o2, b', r2) => k1 = k2 /\ o1 = o2 /\ r1 = r2 /\ rel n a' b' | None, None => True | _, _ => False end).
Context (REL_close : forall n a b room, rel (S n) a b ->
  match close pa a room, close pb b room with Some (o1, a', r1), Some (o2, b', r2) => o1 = o2 /\ r1 = r2 /\ rel n a' b' | None, None => True | _, _ => False end).
Definition swap (a : A) (g : @greader B) : @greader A := GR a (g_data g) (g_off g) (g_eof g) (g_flushed g) (g_err g) (g_src g).
Definition rsim (n : nat) (x : @rout A) (y : @rout B) : Prop :=
  match y with
  | ROk o g => exists a, x = ROk o (swap a g) /\ rel n a (g_p g)
  | RErr g => exists a, x = RErr (swap a g)
  | RSpin => x = RSpin
  | RPanic => x = RPanic
  end.
Lemma fetch_swap a g av needs : fetch cap (swap a g) av needs = (let '(g', av', nd, ag) := fetch cap g av needs in (swap a g', av', nd, ag)) /\ g_p (fst (fst (fst (fetch cap g av needs)))) = g_p g.
Proof.
  unfold fetch. cbn [swap g_data g_off g_eof g_flushed g_err g_src g_p]. destruct (_ && _); [|split; [reflexivity|reflexivity]]. destruct (source_read _ _) as [l src|src|src]; try (split; reflexivity). destruct (zlen l =? 0); split; reflexivity.
Qed.
Lemma front_swap a g : copy_to_front cap (swap a g) = swap a (copy_to_front cap g) /\ g_p (copy_to_front cap g) = g_p g.
Proof. unfold copy_to_front. cbn [swap g_data g_off g_eof g_flushed g_err g_src g_p]. destruct (_ =? cap); [split; reflexivity|]. destruct (_ && _); split; reflexivity. Qed.
Lemma read_loop_two : forall fuel n a g room av needs out, rel (n + fuel) a (g_p g) -> rsim n (read_loop pa cap fuel (swap a g) room av needs out) (read_loop pb cap fuel g room av needs out).
Proof.
  induction fuel as [|fuel IH]; intros n a g room av needs out RE; [reflexivity|]. rewrite !read_loop_eq. change (g_eof (swap a g)) with (g_eof g).
  destruct (negb _); [exists a; split; [reflexivity|]; exact (REL_le n (n + S fuel)%nat _ _ ltac:(lia) RE)|].
  destruct (fetch_swap a g av needs) as (F1 & F2). rewrite F1. clear F1. destruct (fetch cap g av needs) as (((g1, av1), nd1), again). cbn [fst] in F2.
  destruct again; [apply IH; rewrite F2; exact (REL_le (n + fuel)%nat (n + S fuel)%nat _ _ ltac:(lia) RE)|]. rewrite <- F2 in RE. replace (n + S fuel)%nat with (S (n + fuel)) in RE by lia. unfold after.
  cbn [swap g_p g_data g_off g_eof g_flushed g_err g_src].
  assert (TAIL : forall (m : Z) (o : list Z) (a' : A) (g2 : @greader B) (r : pres), rel (n + fuel) a' (g_p g2) ->
    rsim n (if (av1 <? m) || (room - zlen out <? zlen o) then RPanic else if (av1 - m =? 0) && g_err g2 then RErr (GR a' (g_data g2) (g_off g2) (g_eof g2) (g_flushed g2) false (g_src g2)) else
              let nd := if av1 - m =? 0 then true else nd1 in let g3 := if av1 - m =? 0 then copy_to_front cap (swap a' g2) else swap a' g2 in
              match r with PFail => RErr g3 | PSuccess => if g_eof g3 && (av1 - m =? 0) && g_flushed g3 then ROk (out ++ o) g3 else read_loop pa cap fuel g3 room (av1 - m) nd (out ++ o) | _ => read_loop pa cap fuel g3 room (av1 - m) nd (out ++ o) end)
           (if (av1 <? m) || (room - zlen out <? zlen o) then RPanic else if (av1 - m =? 0) && g_err g2 then RErr (GR (g_p g2) (g_data g2) (g_off g2) (g_eof g2) (g_flushed g2) false (g_src g2)) else
              let nd := if av1 - m =? 0 then true else nd1 in let g3 := if av1 - m =? 0 then copy_to_front cap g2 else g2 in
              match r with PFail => RErr g3 | PSuccess => if g_eof g3 && (av1 - m =? 0) && g_flushed g3 then ROk (out ++ o) g3 else read_loop pb cap fuel g3 room (av1 - m) nd (out ++ o) | _ => read_loop pb cap fuel g3 room (av1 - m) nd (out ++ o) end)).
  { intros m o a' g2 r R2. destruct (_ || _); [reflexivity|]. destruct ((av1 - m =? 0) && g_err g2); [exists a'; reflexivity|]. cbv zeta. destruct (front_swap a' g2) as (K1 & K2).
    set (g3 := if av1 - m =? 0 then copy_to_front cap g2 else g2). assert (E3 : (if av1 - m =? 0 then copy_to_front cap (swap a' g2) else swap a' g2) = swap a' g3) by (unfold g3; destruct (av1 - m =? 0); [exact K1|reflexivity]). rewrite E3.
    assert (P3 : g_p g3 = g_p g2) by (unfold g3; destruct (av1 - m =? 0); [exact K2|reflexivity]). rewrite <- P3 in R2. clearbody g3.
    destruct r; [cbn [swap g_eof g_flushed]; destruct (_ && _ && _); [exists a'; split; [reflexivity|exact (REL_le n (n + fuel)%nat _ _ ltac:(lia) R2)]|]|..]; try (apply IH; exact R2). exists a'. reflexivity. }
  destruct (av1 =? 0) eqn:AV.
  - pose proof (REL_close _ _ _ (room - zlen out) RE) as RC. destruct (close pa a (room - zlen out)) as [((o1, a1), r1)|], (close pb (g_p g1) (room - zlen out)) as [((o2, b1), r2)|]; try contradiction; [|reflexivity].
    destruct RC as (-> & -> & RC). exact (TAIL 0 o2 a1 (GR b1 (g_data g1) (g_off g1) (g_eof g1) true (g_err g1) (g_src g1)) r2 RC).
  - pose proof (REL_proc _ _ _ (zfirst av1 (zskip (g_off g1) (g_data g1))) (room - zlen out) RE) as RC. destruct (process pa a _ (room - zlen out)) as [(((m1, o1), a1), r1)|], (process pb (g_p g1) _ (room - zlen out)) as [(((m2, o2), b1), r2)|]; try contradiction; [|reflexivity].
    destruct RC as (-> & -> & -> & RC). exact (TAIL m2 o2 a1 (GR b1 (g_data g1) (g_off g1 + m2) (g_eof g1) (g_flushed g1) (g_err g1) (g_src g1)) r2 RC).
Qed.
Lemma reads_two fuel : forall rooms a g, rel (length rooms * fuel) a (g_p g) -> reads pa cap fuel (swap a g) rooms = reads pb cap fuel g rooms.
Proof.
  induction rooms as [|room rooms IH]; intros a g RE; [reflexivity|]. cbn [reads length Nat.mul] in *. unfold gread. cbn [swap g_data g_off]. rewrite Nat.add_comm in RE.
  pose proof (read_loop_two fuel (length rooms * fuel) a g room (zlen (g_data g) - g_off g) false [] RE) as RS. destruct (read_loop pb cap fuel g room _ false []) as [o g1|g1| |]; cbn [rsim] in RS.
  - destruct RS as (a1 & E & R1). rewrite E, (IH a1 g1 R1). reflexivity.
  - destruct RS as (a1 & ->). reflexivity.
  - rewrite RS. reflexivity.
  - rewrite RS. reflexivity.
Qed.
Definition wswap (a : A) (g : @gwriter B) : @gwriter A := GW a (gw_flushed g) (gw_sink g).
Definition wsim (n : nat) (x : @wout A) (y : @wout B) : Prop :=
  match y with
  | WOk m g => exists a, x = WOk m (wswap a g) /\ rel n a (gw_p g)
  | WErr g => exists a, x = WErr (wswap a g)
  | WSpin => x = WSpin
  | WPanic => x = WPanic
  end.
Lemma write_loop_two : forall fuel n a g total buf, rel (n + fuel) a (gw_p g) -> wsim n (write_loop pa cap fuel (wswap a g) total buf) (write_loop pb cap fuel g total buf).
Proof.
  induction fuel as [|fuel IH]; intros n a g total buf RE; [reflexivity|]. cbn [write_loop]. cbn [wswap gw_p gw_flushed gw_sink]. replace (n + S fuel)%nat with (S (n + fuel)) in RE by lia.
  pose proof (REL_proc _ _ _ buf cap RE) as RC. destruct (process pa a buf cap) as [(((m1, o1), a1), r1)|], (process pb (gw_p g) buf cap) as [(((m2, o2), b1), r2)|]; try contradiction; [|reflexivity].
  destruct RC as (-> & -> & -> & RC). destruct (_ || _); [reflexivity|]. cbv zeta. destruct (write_all (gw_sink g) o2) as (s, ok). set (g1 := GW b1 (gw_flushed g) s). change (GW a1 (gw_flushed g) s) with (wswap a1 g1).
  destruct (negb ok); [exists a1; reflexivity|]. assert (R1 : rel n a1 (gw_p g1)) by exact (REL_le n (n + fuel)%nat _ _ ltac:(lia) RC).
  destruct r2; [exists a1; auto|destruct (negb _); exists a1; auto|apply IH; exact RC|exists a1; reflexivity].
Qed.
Lemma writes_two fuel : forall bufs n a g, rel (n + length bufs * fuel) a (gw_p g) -> exists a', writes pa cap fuel (wswap a g) bufs = (wswap a' (fst (writes pb cap fuel g bufs)), snd (writes pb cap fuel g bufs)) /\
  (snd (writes pb cap fuel g bufs) = Fine -> rel n a' (gw_p (fst (writes pb cap fuel g bufs)))).
Proof.
  induction bufs as [|buf bufs IH]; intros n a g RE; [exists a; cbn [writes fst snd length Nat.mul] in *; rewrite Nat.add_0_r in RE; auto|]. cbn [writes length Nat.mul] in *. unfold gwrite.
  replace (n + (fuel + length bufs * fuel))%nat with ((n + length bufs * fuel) + fuel)%nat in RE by lia. pose proof (write_loop_two fuel _ a g (zlen buf) buf RE) as RS.
  destruct (write_loop pb cap fuel g (zlen buf) buf) as [m g1|g1| |]; cbn [wsim] in RS.
  - destruct RS as (a1 & E & R1). rewrite E. destruct (m =? zlen buf); [exact (IH n a1 g1 R1)|]. exists a1. cbn [fst snd]. split; [reflexivity|discriminate].
  - destruct RS as (a1 & ->). exists a1. cbn [fst snd]. split; [reflexivity|discriminate].
  - rewrite RS. exists a. cbn [fst snd]. split; [reflexivity|discriminate].
  - rewrite RS. exists a. cbn [fst snd]. split; [reflexivity|discriminate].
Qed.
Lemma gflush_two : forall fuel n a g, rel (n + fuel) a (gw_p g) -> wsim n (gflush pa cap fuel (wswap a g)) (gflush pb cap fuel g).
Proof.
  induction fuel as [|fuel IH]; intros n a g RE; cbn [gflush]; change (gw_flushed (wswap a g)) with (gw_flushed g); destruct (gw_flushed g) eqn:FL.
  - exists a. split; [reflexivity|]. exact (REL_le n (n + 0)%nat _ _ ltac:(lia) RE).
  - reflexivity.
  - exists a. split; [reflexivity|]. exact (REL_le n (n + S fuel)%nat _ _ ltac:(lia) RE).
  - cbn [wswap gw_p gw_sink gw_flushed]. replace (n + S fuel)%nat with (S (n + fuel)) in RE by lia. pose proof (REL_close _ _ _ cap RE) as RC.
    destruct (close pa a cap) as [((o1, a1), r1)|], (close pb (gw_p g) cap) as [((o2, b1), r2)|]; try contradiction; [|reflexivity]. destruct RC as (-> & -> & RC). destruct (cap <? zlen o2); [reflexivity|].
    destruct (write_all (gw_sink g) o2) as (s, ok). destruct (negb ok); [exists a1; reflexivity|].
    destruct r2; [exact (IH n a1 (GW b1 true s) RC)|exact (IH n a1 (GW b1 false s) RC)|exact (IH n a1 (GW b1 false s) RC)|exists a1; reflexivity].
Qed.
End Two.
