(** Multiplexer: writer side. *)
From Verif Require Import Prelude ProofList ModelMux SpecMux ProofZlist.

Definition bok (b : mbuf) : Prop := 0 <= rd b /\ rd b <= wr b /\ wr b <= zlen (mem b).

Lemma mb_data_len b : bok b -> zlen (mb_data b) = wr b - rd b.
Proof.
  intros (H1 & H2 & H3). unfold mb_data. rewrite zlen_first, zlen_skip by lia. lia.
Qed.

Lemma zlen_repeat n : 0 <= n -> zlen (repeat 0 (Z.to_nat n)) = n.
Proof. intros. unfold zlen. rewrite repeat_length. lia. Qed.

Lemma grow_room d k : 0 < d -> k = Z.max (Z.log2 d + 1 + 1) 9 -> d <= 2 ^ k.
Proof.
  intros H ->. pose proof (Z.log2_spec d H) as L. unfold Z.succ in L.
  apply Z.le_trans with (2 ^ (Z.log2 d + 1)); [lia|]. apply Z.pow_le_mono_r; lia.
Qed.

Lemma prep_push_spec b n : bok b -> 0 <= n ->
  exists b', prep_push b n = Some b' /\ bok b' /\ mb_data b' = mb_data b /\ wr b' + n <= zlen (mem b') /\
    wr b' - rd b' = wr b - rd b /\ (b' = b \/ rd b' = 3).
Proof.
  intros B N. pose proof B as (B1 & B2 & B3). pose proof (mb_data_len b B) as DL.
  unfold prep_push, assert, MAX_HEADER_SIZE.
  destruct (Z.leb_spec (wr b) (zlen (mem b))); [|lia].
  destruct (Z.leb_spec (rd b) (wr b)); [|lia].
  destruct (Z.leb_spec n (zlen (mem b) - wr b)) as [G|G].
  { exists b. repeat split; auto; lia. }
  match goal with |- context [if ?c then _ else _] => destruct c eqn:C end.
  - apply andb_prop in C. destruct C as (C1 & C2). apply Z.leb_le in C1.
    assert (R : 3 + (wr b - rd b) <= rd b).
    { apply orb_prop in C2. destruct C2 as [C2|C2].
      - apply Z.eqb_eq in C2. lia.
      - apply andb_prop in C2. destruct C2 as (C2 & C3). apply Z.ltb_lt in C3. lia. }
    destruct (Z.leb_spec (3 + (wr b - rd b)) (rd b)); [|lia].
    eexists. split; [reflexivity|]. cbn [rd wr mem].
    assert (Lm : zlen (put_at (mem b) 3 (mb_data b)) = zlen (mem b)) by (apply zlen_put; lia).
    split; [unfold bok; cbn [rd wr mem]; lia|]. split; [|repeat split; try lia; right; reflexivity].
    unfold mb_data at 1. cbn [rd wr mem]. rewrite zskip_put by lia. apply zfirst_app_exact. lia.
  - eexists. split; [reflexivity|]. cbn [rd wr mem].
    set (d := 3 + n + (wr b - rd b)). set (k := Z.max (Z.log2 d + 1 + 1) 9).
    assert (K : d <= 2 ^ k) by (apply grow_room; [unfold d; lia|reflexivity]).
    assert (P : 0 <= 2 ^ k) by (apply Z.pow_nonneg; lia).
    pose proof (zlen_repeat (2 ^ k) P) as Lr.
    assert (Lm : zlen (put_at (repeat 0 (Z.to_nat (2 ^ k))) 3 (mb_data b)) = 2 ^ k).
    { rewrite zlen_put; lia. }
    split; [unfold bok; cbn [rd wr mem]; lia|]. split; [|repeat split; try lia; right; reflexivity].
    unfold mb_data at 1. cbn [rd wr mem]. rewrite zskip_put by lia. apply zfirst_app_exact. lia.
Qed.

Lemma push_buf_spec b data : bok b ->
  exists b', push_buf b data = Some b' /\ bok b' /\ mb_data b' = mb_data b ++ data /\
    (rd b' = rd b /\ (mem b' = [] -> mem b = []) \/ rd b' = 3) /\
    (mem b = [] -> mem b' = [] \/ rd b' = 3).
Proof.
  intros B. destruct (prep_push_spec b (zlen data) B (zlen_nonneg _)) as (b1 & P & B1 & D & R & A & O).
  unfold push_buf. rewrite P. cbn [bind]. unfold assert.
  pose proof (zlen_nonneg data). destruct B1 as (X1 & X2 & X3).
  destruct (Z.leb_spec (wr b1 + zlen data) (zlen (mem b1))); [|lia].
  eexists. split; [reflexivity|].
  assert (Lm : zlen (put_at (mem b1) (wr b1) data) = zlen (mem b1)) by (apply zlen_put; lia).
  split; [|split; [|split]].
  - unfold bok. cbn [rd wr mem]. lia.
  - rewrite <- D. unfold mb_data at 1. cbn [rd wr mem]. rewrite zskip_put_before by lia.
    rewrite app_assoc. rewrite zfirst_app_exact; [reflexivity|].
    rewrite zlen_app, zlen_first, zlen_skip by lia. lia.
  - cbn [rd mem]. destruct O as [->|O]; [left; split; auto|right; exact O].
    intros M. rewrite M in Lm. rewrite zlen_nil in Lm. apply zlen_0_nil. lia.
  - intros M. cbn [rd mem]. destruct O as [->|O]; [left|right; exact O].
    apply zlen_0_nil. rewrite Lm, M. reflexivity.
Qed.

(** ** Chunk headers *)
Definition frame_ok (s n : Z) (hdr : list Z) : Prop :=
  (exists lo hi, byte lo /\ byte hi /\ hdr = [s; lo; hi] /\ n = lo + 256 * hi + 1) \/
  (hdr = [s + 16] /\ n = 4096) \/ (hdr = [s + 32] /\ n = 16384) \/ (hdr = [s + 48] /\ n = 65536).
Lemma frame_ok_len s n hdr : frame_ok s n hdr -> 1 <= zlen hdr <= 3 /\ 1 <= n.
Proof.
  unfold frame_ok, byte. intros [(lo & hi & L & H & -> & ->)|[(-> & ->)|[(-> & ->)|(-> & ->)]]]; unfold zlen; cbn [length]; lia.
Qed.
Lemma get_code_var_ok s n : 1 <= n < 65536 -> exists hdr, get_code_var s n = Some (hdr, n) /\ frame_ok s n hdr.
Proof.
  intros H. unfold get_code_var, assert. destruct (Z.ltb_spec n 65536); [|lia]. destruct (Z.leb_spec 1 n); [|lia].
  eexists. split; [reflexivity|]. left. exists ((n - 1) mod 256), (((n - 1) / 256) mod 256).
  unfold byte. repeat split; lia.
Qed.
Lemma lor_sid s k : s = 0 \/ s = 1 -> k = 16 \/ k = 32 \/ k = 48 -> Z.lor s k = s + k.
Proof. intros [->| ->] [->|[->| ->]]; reflexivity. Qed.
Lemma get_code_ok s n0 lag : 1 <= n0 -> s = 0 \/ s = 1 ->
  exists hdr n, get_code s n0 lag = Some (hdr, n) /\ n <= n0 /\ frame_ok s n hdr.
Proof.
  intros N S. unfold get_code.
  destruct (negb lag || (n0 =? 4096) || (n0 =? 16384) || (65536 <=? n0)) eqn:C.
  - destruct (Z.ltb_spec n0 4096) as [L|L].
    { destruct (get_code_var_ok s n0 ltac:(lia)) as (h & E & F). exists h, n0. auto with zarith. }
    destruct (Z.ltb_spec n0 16384); [|destruct (Z.ltb_spec n0 65536)].
    + rewrite lor_sid by auto. exists [s + 16], 4096. repeat split; auto; try lia. right. auto.
    + rewrite lor_sid by auto. exists [s + 32], 16384. repeat split; auto; try lia. right. right. auto.
    + rewrite lor_sid by auto. exists [s + 48], 65536. repeat split; auto; try lia. right. right. auto.
  - assert (n0 < 65536) by lia.
    destruct (get_code_var_ok s n0 ltac:(lia)) as (h & E & F). exists h, n0. auto with zarith.
Qed.

(** ** The invariant: [q s] = bytes of stream [s] not yet assigned to a chunk,
    [pend] = bytes of the current chunk (header included) not yet output. *)
Definition strm (s : Z) : Prop := s = 0 \/ s = 1.
Definition inv (m : mux) (q : Z -> list Z) (pend : list Z) : Prop :=
  strm (cur_stream m) /\ cur_avail m = zlen pend /\
  forall s, strm s ->
    bok (getb m s) /\
    mb_data (getb m s) = (if cur_stream m =? s then pend else []) ++ q s /\
    (mem (getb m s) = [] \/ 3 <= rd (getb m s) \/
     (pend <> [] /\ cur_stream m = s /\ 4 <= rd (getb m s) + zlen pend)).

Definition upd (q : Z -> list Z) (s : Z) (x : list Z) : Z -> list Z := fun t => if t =? s then x else q t.

Lemma getb_setb m s t b : strm s -> strm t -> getb (setb m s b) t = if t =? s then b else getb m t.
Proof. intros [->| ->] [->| ->]; reflexivity. Qed.
Lemma setb_cur m s b : cur_stream (setb m s b) = cur_stream m /\ cur_avail (setb m s b) = cur_avail m.
Proof. unfold setb. destruct (s =? 0); auto. Qed.
Lemma setb_eof m s b : eof (setb m s b) = eof m /\ to_deser (setb m s b) = to_deser m.
Proof. unfold setb. destruct (s =? 0); auto. Qed.
Lemma getb_set_cur m a c t : getb (set_cur m a c) t = getb m t.
Proof. reflexivity. Qed.
Lemma getb_set_flushed m s f t : getb (set_flushed m s f) t = getb m t.
Proof. reflexivity. Qed.

Lemma strm_dec s t : strm s -> strm t -> s = t \/ (s <> t /\ (s =? t) = false /\ (t =? s) = false).
Proof. intros [->| ->] [->| ->]; auto; right; repeat split; discriminate. Qed.

Lemma inv_new : inv mux_new (fun _ => []) [].
Proof.
  split; [left; reflexivity|]. split; [reflexivity|].
  intros s [->| ->]; (split; [split; [|split]; discriminate|]); (split; [reflexivity|]); left; reflexivity.
Qed.

Lemma push_inv m q pend s data : inv m q pend -> strm s ->
  exists m', push_data m s data = Some m' /\ inv m' (upd q s (q s ++ data)) pend /\ eof m' = eof m.
Proof.
  intros (C1 & C2 & I) S. destruct (I s S) as (B & D & R).
  assert (E : rd (getb m s) = wr (getb m s) -> mem (getb m s) = [] \/ 3 <= rd (getb m s)).
  { intros E. destruct R as [R|[R|(R1 & R2 & R3)]]; auto. exfalso. apply R1.
    pose proof (mb_data_len _ B) as L. rewrite D, R2, Z.eqb_refl, zlen_app in L.
    pose proof (zlen_nonneg (q s)). pose proof (zlen_nonneg pend). apply zlen_0_nil. lia. }
  destruct (push_buf_spec _ data B) as (b' & P & B' & D' & R' & M').
  unfold push_data. rewrite P. cbn [bind]. eexists. split; [reflexivity|].
  destruct (setb_cur m s b') as (X1 & X2). destruct (setb_eof m s b') as (X3 & _).
  split; [|exact X3]. split; [rewrite X1; exact C1|]. split; [rewrite X2; exact C2|].
  intros t T. rewrite (getb_setb m s t b' S T), X1. unfold upd.
  destruct (strm_dec t s T S) as [->|(N & N1 & N2)].
  - rewrite Z.eqb_refl. split; [exact B'|]. split.
    + rewrite D', D, <- app_assoc. reflexivity.
    + destruct R as [R|[R|(R1 & R2 & R3)]].
      * destruct (M' R) as [M|M]; [left; exact M|right; left; lia].
      * right. left. destruct R' as [(R' & _)|R']; lia.
      * destruct R' as [(R' & _)|R']; [|right; left; lia]. right. right. rewrite R'. auto.
  - rewrite N1. apply I. exact T.
Qed.

(** frames emitted *)
Record frame := FR { f_s : Z; f_hdr : list Z; f_data : list Z }.
Definition frame_good (f : frame) : Prop := strm (f_s f) /\ frame_ok (f_s f) (zlen (f_data f)) (f_hdr f).
Fixpoint enc (fs : list frame) : list Z :=
  match fs with [] => [] | f :: fs => f_hdr f ++ f_data f ++ enc fs end.
Fixpoint payl (s : Z) (fs : list frame) : list Z :=
  match fs with [] => [] | f :: fs => (if f_s f =? s then f_data f else []) ++ payl s fs end.
Lemma enc_app f1 f2 : enc (f1 ++ f2) = enc f1 ++ enc f2.
Proof. induction f1; cbn [enc app]; auto. rewrite IHf1, <- !app_assoc. reflexivity. Qed.
Lemma payl_app s f1 f2 : payl s (f1 ++ f2) = payl s f1 ++ payl s f2.
Proof. induction f1; cbn [payl app]; auto. rewrite IHf1, <- !app_assoc. reflexivity. Qed.

Definition emits (q : Z -> list Z) (pend : list Z) (q' : Z -> list Z) (pend' out : list Z) : Prop :=
  exists fs, Forall frame_good fs /\ out ++ pend' = pend ++ enc fs /\
    forall s, strm s -> q s = payl s fs ++ q' s.
Lemma emits_refl q pend : emits q pend q pend [].
Proof. exists []. split; [constructor|]. cbn. rewrite app_nil_r. auto. Qed.
Lemma emits_trans q p q1 p1 o1 q2 p2 o2 :
  emits q p q1 p1 o1 -> emits q1 p1 q2 p2 o2 -> emits q p q2 p2 (o1 ++ o2).
Proof.
  intros (f1 & G1 & E1 & Q1) (f2 & G2 & E2 & Q2). exists (f1 ++ f2).
  split; [apply Forall_app; auto|]. split.
  - rewrite enc_app, <- app_assoc, E2, app_assoc, E1, <- app_assoc. reflexivity.
  - intros s S. rewrite payl_app, <- app_assoc, <- (Q2 s S). apply Q1, S.
Qed.

(** leftover *)
Lemma leftover_inv m q pend room : inv m q pend -> 0 <= room ->
  exists out m' pend', serialize_leftover m room = Some (out, m') /\ inv m' q pend' /\
    pend = out ++ pend' /\ zlen out = Z.min room (zlen pend) /\ eof m' = eof m.
Proof.
  intros (C1 & C2 & I) Rm. destruct (I _ C1) as (B & D & R). rewrite Z.eqb_refl in D.
  pose proof (zlen_nonneg pend) as Np.
  unfold serialize_leftover, assert. set (b := getb m (cur_stream m)) in *. destruct B as (B1 & B2 & B3).
  pose proof (mb_data_len b (conj B1 (conj B2 B3))) as L. rewrite D, zlen_app in L. pose proof (zlen_nonneg (q (cur_stream m))).
  set (k := Z.min (cur_avail m) room).
  assert (K : 0 <= k <= zlen pend) by (unfold k; lia).
  destruct (Z.leb_spec (rd b + k) (zlen (mem b))); [|lia].
  assert (O : zfirst k (zskip (rd b) (mem b)) = zfirst k pend).
  { transitivity (zfirst k (mb_data b)).
    - unfold mb_data. rewrite zfirst_zfirst. f_equal. lia.
    - rewrite D. apply zfirst_app_less. lia. }
  eexists _, _, (zskip k pend). split; [reflexivity|]. rewrite O.
  split; [|split; [symmetry; apply zfirst_skip|split; [rewrite zlen_first by lia; unfold k; lia|]]].
  2:{ unfold set_cur. cbn [eof]. apply setb_eof. }
  split; [exact C1|]. split; [cbn [cur_avail set_cur]; rewrite zlen_skip by lia; lia|].
  intros s S. rewrite getb_set_cur, getb_setb by auto. cbn [cur_stream set_cur].
  destruct (strm_dec s (cur_stream m) S C1) as [->|(N & N1 & N2)].
  - rewrite Z.eqb_refl. split; [unfold bok; cbn [rd wr mem]; lia|]. split.
    + unfold mb_data. cbn [rd wr mem]. rewrite <- zskip_zskip by lia.
      replace (wr b - (rd b + k)) with (wr b - rd b - k) by lia. rewrite <- zskip_zfirst by lia.
      fold (mb_data b). rewrite D. apply zskip_app_less. lia.
    + cbn [rd mem]. destruct R as [R|[R|(R1 & R2 & R3)]]; [left; exact R|right; left; lia|].
      destruct (Z.eq_dec k (zlen pend)) as [Ek|Ek]; [right; left; lia|].
      right. right. split; [|split; [reflexivity|rewrite zlen_skip by lia; lia]].
      intros Zn. pose proof (zlen_skip k pend ltac:(lia)) as Zl. rewrite Zn, zlen_nil in Zl. lia.
  - rewrite N1, N2. destruct (I s S) as (X1 & X2 & X3). rewrite N2 in X2. split; [exact X1|]. split; [exact X2|].
    destruct X3 as [X3|[X3|(_ & X4 & _)]]; auto. congruence.
Qed.

(** one chunk *)
Lemma stream_id_inv m q s room lag : inv m q [] -> strm s -> q s <> [] -> 0 <= room ->
  exists out m' q' pend', serialize_stream_id m s room lag = Some (out, m') /\ inv m' q' pend' /\
    emits q [] q' pend' out /\ (pend' <> [] -> zlen out = room) /\ zlen out <= room /\
    (0 < room -> out <> []) /\ eof m' = eof m /\
    (forall t, strm t -> t <> s -> q' t = q t) /\ zlen (q' s) < zlen (q s).
Proof.
  intros (C1 & C2 & I) S Q Rm. destruct (I s S) as (B & D & R).
  assert (D' : mb_data (getb m s) = q s) by (rewrite D; destruct (cur_stream m =? s); reflexivity).
  clear D. rename D' into D.
  set (b := getb m s) in *. pose proof (mb_data_len b B) as L. rewrite D in L.
  assert (QL : 1 <= zlen (q s)).
  { pose proof (zlen_nonneg (q s)). destruct (Z.eq_dec (zlen (q s)) 0) as [E|E]; [|lia].
    apply zlen_0_nil in E. contradiction. }
  assert (R3 : 3 <= rd b).
  { destruct R as [R|[R|(R & _)]]; [|exact R|contradiction].
    destruct B as (B1 & B2 & B3). rewrite R, zlen_nil in B3. lia. }
  unfold serialize_stream_id. fold b.
  destruct (get_code_ok s (wr b - rd b) lag ltac:(lia) S) as (hdr & n & G & Nn & F).
  rewrite G. cbn [bind]. unfold assert, MAX_HEADER_SIZE.
  destruct (Z.leb_spec 3 (rd b)); [|lia]. cbv zeta.
  destruct (frame_ok_len _ _ _ F) as (HL & N1). destruct B as (B1 & B2 & B3).
  set (r := rd b - zlen hdr). set (mem' := put_at (mem b) r hdr).
  assert (Lm : zlen mem' = zlen (mem b)) by (apply zlen_put; unfold r; lia).
  set (tw := Z.min (n + zlen hdr) room).
  set (payload := zfirst n (q s)).
  assert (LP : zlen payload = n) by (unfold payload; rewrite zlen_first by lia; lia).
  assert (SK : zskip r mem' = hdr ++ zskip (rd b) (mem b)).
  { unfold mem'. rewrite zskip_put by (unfold r; lia). f_equal. f_equal. unfold r. lia. }
  assert (DA : zfirst (wr b - r) (zskip r mem') = hdr ++ q s).
  { rewrite SK, zfirst_app_more by (unfold r; lia). f_equal. rewrite <- D. unfold mb_data. f_equal. unfold r. lia. }
  assert (CH : hdr ++ q s = (hdr ++ payload) ++ zskip n (q s)) by (rewrite <- app_assoc; f_equal; symmetry; apply zfirst_skip).
  assert (LC : zlen (hdr ++ payload) = n + zlen hdr) by (rewrite zlen_app; lia).
  assert (O : zfirst tw (zskip r mem') = zfirst tw (hdr ++ payload)).
  { transitivity (zfirst tw (zfirst (wr b - r) (zskip r mem'))).
    - rewrite zfirst_zfirst. f_equal. unfold tw, r. lia.
    - rewrite DA, CH. apply zfirst_app_less. unfold tw. lia. }
  rewrite O.
  set (pend' := zskip tw (hdr ++ payload)).
  assert (LPd : zlen pend' = n + zlen hdr - tw) by (unfold pend', tw; rewrite zlen_skip by lia; lia).
  set (b' := if r + tw =? wr b then MB mem' 3 3 else MB mem' (r + tw) (wr b)).
  assert (BK : bok b' /\ mb_data b' = pend' ++ zskip n (q s) /\
               (rd b' = r + tw \/ (rd b' = 3 /\ pend' = []))).
  { unfold b'. destruct (Z.eqb_spec (r + tw) (wr b)) as [E|E].
    - assert (P0 : pend' = []).
      { apply zlen_0_nil. rewrite LPd. unfold r, tw in *. lia. }
      split; [unfold bok; cbn [rd wr mem]; lia|]. split.
      + unfold mb_data. cbn [rd wr mem]. rewrite P0, Z.sub_diag, zfirst_0. cbn [app]. symmetry. apply zskip_all.
        unfold r, tw in E. lia.
      + right. auto.
    - split; [unfold bok; cbn [rd wr mem]; unfold r, tw; lia|]. split; [|left; reflexivity].
      unfold mb_data. cbn [rd wr mem]. rewrite <- (zskip_zskip tw r) by (unfold r, tw; lia).
      replace (wr b - (r + tw)) with (wr b - r - tw) by lia.
      rewrite <- zskip_zfirst by (unfold tw; lia). rewrite DA, CH. apply zskip_app_less. unfold tw. lia. }
  destruct BK as (BK1 & BK2 & BK3).
  exists (zfirst tw (hdr ++ payload)).
  eexists. exists (upd q s (zskip n (q s))), pend'. split; [reflexivity|].
  assert (LO : zlen (zfirst tw (hdr ++ payload)) = tw) by (rewrite zlen_first by (unfold tw; lia); unfold tw; lia).
  split.
  { (* invariant *)
    assert (GB : forall t, strm t ->
      getb (setb (set_flushed m s (flushed m + n)) s b') t = if t =? s then b' else getb m t).
    { intros t T. rewrite getb_setb by auto. reflexivity. }
    destruct (Z.eqb_spec tw (n + zlen hdr)) as [E|E].
    - assert (P0 : pend' = []) by (apply zlen_0_nil; lia).
      rewrite P0 in *.
      destruct (setb_cur (set_flushed m s (flushed m + n)) s b') as (X1 & X2).
      split; [rewrite X1; exact C1|]. split; [rewrite X2; exact C2|].
      intros t T. rewrite X1. rewrite (GB t T). unfold upd. clear GB.
      destruct (strm_dec t s T S) as [->|(N & N1' & N2)].
      + rewrite Z.eqb_refl. split; [exact BK1|]. split; [rewrite BK2; destruct (cur_stream _ =? s); reflexivity|].
        right. left. destruct BK3 as [->|(-> & _)]; [unfold r in *; lia|lia].
      + rewrite N1'. apply I, T.
    - destruct (setb_cur (set_flushed m s (flushed m + n)) s b') as (X1 & X2).
      split; [exact S|]. split; [cbn [cur_avail set_cur]; lia|].
      intros t T. cbn [cur_stream set_cur]. rewrite getb_set_cur, (GB t T). unfold upd. clear GB.
      destruct (strm_dec t s T S) as [->|(N & N1' & N2)].
      + rewrite Z.eqb_refl. split; [exact BK1|]. split; [exact BK2|].
        right. right. split; [intros P0; rewrite P0, zlen_nil in LPd; lia|]. split; [reflexivity|].
        destruct BK3 as [->|(-> & P0)]; [unfold r in *; lia|rewrite P0, zlen_nil in LPd; lia].
      + rewrite N1', N2. destruct (I t T) as (Y1 & Y2 & Y3). split; [exact Y1|]. split; [rewrite Y2; destruct (cur_stream m =? t); reflexivity|].
        destruct Y3 as [Y3|[Y3|(Y3 & _)]]; auto. contradiction. }
  split.
  { exists [FR s hdr payload]. split; [constructor; [|constructor]; split; [exact S|cbn [f_data f_s f_hdr]; rewrite LP; exact F]|].
    split.
    - cbn [enc f_hdr f_data app]. rewrite app_nil_r. apply zfirst_skip.
    - intros t T. cbn [payl f_s f_data]. unfold upd.
      destruct (strm_dec t s T S) as [->|(N & N1' & N2)].
      + rewrite Z.eqb_refl, app_nil_r. symmetry. apply zfirst_skip.
      + rewrite N1', N2. reflexivity. }
  split. { intros P. rewrite LO. assert (zlen pend' <> 0) by (intros X; apply P, zlen_0_nil, X). unfold tw in *. lia. }
  split. { rewrite LO. unfold tw. lia. }
  split. { intros Rp X. rewrite X, zlen_nil in LO. unfold tw in LO. lia. }
  split. { destruct (setb_eof (set_flushed m s (flushed m + n)) s b') as (X3 & _).
           destruct (tw =? n + zlen hdr); [exact X3|exact X3]. }
  split.
  - intros t T N. unfold upd. destruct (Z.eqb_spec t s); [contradiction|reflexivity].
  - unfold upd. rewrite Z.eqb_refl, zlen_skip by lia. lia.
Qed.
