(** Any bytes in the decompressor: more fuel changes no answer. *)
From Verif Require Import Prelude ModelAns ModelCdf ModelMux ModelCmd ModelHeader ModelRecode ModelPriors ModelCodec ModelLit ModelPm ModelTop SpecCodec ModelEnc ModelDec SpecHostile SpecGuard.

Section More.
Context (dict : dict_fn) (wl : word_len_fn) (D : dims) (skip : bool).
Lemma gw_run_more : forall fuel w q, gw_run wl D fuel w q <> Stuck -> gw_run wl D (S fuel) w q = gw_run wl D fuel w q.
Proof.
  induction fuel as [|fuel IH]; intros w q NS; [contradiction NS; reflexivity|].
  remember (S fuel) as f eqn:Ef. rewrite Ef at 2. cbn [gw_run]. rewrite Ef in NS. cbn [gw_run] in NS.
  destruct (unless (w_danger wl D w q) (of_opt (w_step wl D w q))) as [[[w1 q1] r]| |]; cbn [gbind] in *; try reflexivity. destruct r; [reflexivity|]. subst f. apply IH, NS.
Qed.
Lemma g_output_more : forall fuel q m room, g_output dict skip fuel q m room <> Stuck -> g_output dict skip (S fuel) q m room = g_output dict skip fuel q m room.
Proof.
  induction fuel as [|fuel IH]; intros q m room NS; [contradiction NS; reflexivity|].
  remember (S fuel) as f eqn:Ef. rewrite Ef at 2. cbn [g_output]. rewrite Ef in NS. cbn [g_output] in NS.
  match goal with |- gbind ?x _ = _ => destruct x as [[m1 ok]| |] end; cbn [gbind] in *; try reflexivity. destruct ok; cbn [negb] in *; [|reflexivity].
  match goal with |- gbind ?x _ = _ => destruct x as [[[o m2] r]| |] end; cbn [gbind] in *; try reflexivity. destruct r; try reflexivity.
  destruct (of_opt (pull_commands q m2)) as [[[q3 m3] need]| |]; cbn [gbind] in *; try reflexivity. destruct need; [reflexivity|]. destruct (m_cmds m3) as [|c cs]; [reflexivity|].
  destruct (unless _ _) as [[[q4 m4] r4]| |]; cbn [gbind] in *; try reflexivity. destruct r4; [reflexivity|]. subst f. rewrite IH; [reflexivity|]. intros X. rewrite X in NS. apply NS. reflexivity.
Qed.
Lemma g_process_more : forall fuel p input room, g_process dict wl D skip fuel p input room <> Stuck -> g_process dict wl D skip (S fuel) p input room = g_process dict wl D skip fuel p input room.
Proof.
  induction fuel as [|fuel IH]; intros p input room NS; [contradiction NS; reflexivity|].
  remember (S fuel) as f eqn:Ef. rewrite Ef at 2. cbn [g_process]. rewrite Ef in NS. cbn [g_process] in NS. rewrite <- Ef in *.
  destruct (of_opt (process_input skip (p_q p) (p_m p) input)) as [[[[n q1] m1] ok]| |]; cbn [gbind] in *; try reflexivity. destruct ok; cbn [negb] in *; [|reflexivity].
  assert (NW : gw_run wl D f (p_w p) q1 <> Stuck) by (intros X; rewrite X in NS; apply NS; reflexivity). rewrite (gw_run_more _ _ _ NW).
  destruct (gw_run wl D f (p_w p) q1) as [[[w2 q2] r]| |]; cbn [gbind] in *; try reflexivity.
  assert (GO : forall cond : bool,
    (if cond then Fine (n, [], PR w2 q2 m1, DNeedIn) else
          let! '(o, q, m, r) := g_output dict skip f q2 m1 room in
          match r with
          | Processed r => Fine (n, o, PR w2 q m, r)
          | Yield =>
              let! '(n2, o2, p, r) := g_process dict wl D skip fuel (PR w2 q m) (zskip n input) (room - zlen o) in
              Fine (n + n2, o ++ o2, p, r)
          end) <> Stuck ->
    (if cond then Fine (n, [], PR w2 q2 m1, DNeedIn) else
          let! '(o, q, m, r) := g_output dict skip (S f) q2 m1 room in
          match r with
          | Processed r => Fine (n, o, PR w2 q m, r)
          | Yield =>
              let! '(n2, o2, p, r) := g_process dict wl D skip f (PR w2 q m) (zskip n input) (room - zlen o) in
              Fine (n + n2, o ++ o2, p, r)
          end) =
    (if cond then Fine (n, [], PR w2 q2 m1, DNeedIn) else
          let! '(o, q, m, r) := g_output dict skip f q2 m1 room in
          match r with
          | Processed r => Fine (n, o, PR w2 q m, r)
          | Yield =>
              let! '(n2, o2, p, r) := g_process dict wl D skip fuel (PR w2 q m) (zskip n input) (room - zlen o) in
              Fine (n + n2, o ++ o2, p, r)
          end)).
  { intros cond N2. destruct cond; [reflexivity|]. assert (NO : g_output dict skip f q2 m1 room <> Stuck) by (intros X; rewrite X in N2; apply N2; reflexivity). rewrite (g_output_more _ _ _ _ NO).
    destruct (g_output dict skip f q2 m1 room) as [[[[o3 q3] m3] r3]| |]; cbn [gbind] in *; try reflexivity. destruct r3; [reflexivity|]. subst f. rewrite IH; [reflexivity|]. intros X. rewrite X in N2. apply N2. reflexivity. }
  destruct r; try (apply GO, NS). reflexivity.
Qed.
Lemma g_decode_more fuel d input room : g_decode dict wl D skip fuel d input room <> Stuck -> g_decode dict wl D skip (S fuel) d input room = g_decode dict wl D skip fuel d input room.
Proof.
  unfold g_decode. destruct d as [h|p].
  - destruct (hp_decode h input) as [[h1 n1] r1]. destruct r1 as [|er|ws]; try reflexivity. cbv zeta. destruct (_ <? _); [|reflexivity]. intros NS. rewrite g_process_more; [reflexivity|]. intros X. rewrite X in NS. apply NS. reflexivity.
  - cbv zeta. intros NS. rewrite g_process_more; [reflexivity|]. intros X. rewrite X in NS. apply NS. reflexivity.
Qed.
Lemma g_session_more fuel : forall calls d, g_session dict wl D skip fuel d calls <> Stuck -> g_session dict wl D skip (S fuel) d calls = g_session dict wl D skip fuel d calls.
Proof.
  induction calls as [|[input room] calls IH]; intros d; cbn [g_session]; [reflexivity|]. intros NS. rewrite g_decode_more by (intros X; rewrite X in NS; apply NS; reflexivity).
  destruct (g_decode dict wl D skip fuel d input room) as [[[[n o] d'] r]| |]; cbn [gbind] in *; try reflexivity.
  destruct r; try reflexivity; (rewrite IH; [reflexivity|]; intros X; rewrite X in NS; apply NS; reflexivity).
Qed.
Lemma g_session_fuel fuel k calls d : g_session dict wl D skip fuel d calls <> Stuck -> g_session dict wl D skip (k + fuel) d calls = g_session dict wl D skip fuel d calls.
Proof.
  intros NS. induction k as [|k IH]; [reflexivity|]. change (S k + fuel)%nat with (S (k + fuel)). rewrite g_session_more; [exact IH|]. rewrite IH. exact NS.
Qed.
End More.
