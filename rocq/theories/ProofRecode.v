(** The history window implements [meaning]. *)
From Verif Require Import Prelude ProofList ModelMux ModelCmd ModelRecode SpecLz ProofZlist.

(** ** copied *)
Lemma copied_len h d n : length (copied h d n) = n.
Proof. revert h; induction n; intros; cbn [copied length]; auto. Qed.
Lemma copied_app d a b : forall h, copied h d (a + b) = copied h d a ++ copied (h ++ copied h d a) d b.
Proof.
  induction a as [|a IH]; intros h; cbn [Nat.add copied app].
  - rewrite app_nil_r. reflexivity.
  - f_equal. rewrite IH. f_equal. rewrite <- app_assoc. reflexivity.
Qed.
Lemma copied_first h d k n : (k <= n)%nat -> firstn k (copied h d n) = copied h d k.
Proof.
  intros. replace n with (k + (n - k))%nat by lia. rewrite copied_app, firstn_app, copied_len, Nat.sub_diag, firstn_O, app_nil_r.
  apply firstn_all2. rewrite copied_len. lia.
Qed.
Lemma nth_as_skip (h : list Z) i : (i < length h)%nat -> firstn 1 (skipn i h) = [nth i h 0].
Proof.
  revert i; induction h as [|x h IH]; intros [|i] H; cbn [length] in H; try lia; cbn [skipn nth]; auto.
  apply IH. lia.
Qed.
Lemma copied_short d k : forall h, (k <= d)%nat -> (d <= length h)%nat -> (1 <= d)%nat ->
  copied h d k = firstn k (skipn (length h - d) h).
Proof.
  induction k as [|k IH]; intros h K D D1; [reflexivity|].
  replace (Datatypes.S k) with (k + 1)%nat by lia. rewrite copied_app, IH by lia.
  rewrite <- (skipn_firstn_app h (length h - d) k 1). f_equal. cbn [copied]. symmetry.
  set (f := firstn k (skipn (length h - d) h)).
  assert (LF : length f = k) by (unfold f; rewrite firstn_length, skipn_length; lia).
  rewrite app_length, LF. rewrite nth_as_skip by lia. f_equal. rewrite app_nth1 by lia. f_equal. lia.
Qed.

(** ** the window holds the end of the history *)
Definition rot (rb : list Z) (d : Z) : list Z := zskip d rb ++ zfirst d rb.
Definition len (r : rcs) : Z := zlen (ring r).
Definition ok (r : rcs) (h : list Z) : Prop :=
  0 <= di r < len r /\ 0 <= oi r < len r /\ len r <= zlen h /\ rot (ring r) (di r) = zskip (zlen h - len r) h.
Definition unf (r : rcs) : Z := if oi r <=? di r then di r - oi r else di r + len r - oi r.
Lemma space_unf r : space_left r = len r - 1 - unf r.
Proof. unfold space_left, unf, len. destruct (oi r <=? di r); lia. Qed.
Lemma unf_range r h : ok r h -> 0 <= unf r < len r.
Proof. intros (A & B & _). unfold unf. destruct (Z.leb_spec (oi r) (di r)); lia. Qed.
Lemma rot_len rb d : 0 <= d <= zlen rb -> zlen (rot rb d) = zlen rb.
Proof. intros. unfold rot. rewrite zlen_app, zlen_skip, zlen_first by lia. lia. Qed.
Lemma rot_end rb : rot rb (zlen rb) = rot rb 0.
Proof. unfold rot. rewrite zskip_all, zfirst_all, zskip_0, zfirst_0, app_nil_r by lia. reflexivity. Qed.

(** the last [d] bytes of history, read from the window *)
Lemma hist_tail r h d : ok r h -> 0 <= d <= len r ->
  zskip (zlen h - d) h = zskip (len r - d) (rot (ring r) (di r)).
Proof.
  intros (A & B & C & D) H. rewrite D, zskip_zskip by lia. f_equal. lia.
Qed.
Lemma hist_near r h d n : ok r h -> 0 <= n <= d -> d <= di r ->
  zfirst n (zskip (zlen h - d) h) = zfirst n (zskip (di r - d) (ring r)).
Proof.
  intros K N D. pose proof K as (A & B & C & E). rewrite (hist_tail r h d K) by lia. unfold rot.
  rewrite zskip_app_more by (rewrite zlen_skip by lia; unfold len in *; lia).
  rewrite zlen_skip by lia. replace (len r - d - Z.max 0 (zlen (ring r) - di r)) with (di r - d) by (unfold len in *; lia).
  rewrite zskip_zfirst by lia. rewrite zfirst_zfirst. f_equal. lia.
Qed.
Lemma hist_far r h d n : ok r h -> di r < d <= len r -> 0 <= n <= d - di r ->
  zfirst n (zskip (zlen h - d) h) = zfirst n (zskip (di r + len r - d) (ring r)).
Proof.
  intros K D N. pose proof K as (A & B & C & E). rewrite (hist_tail r h d K) by lia. unfold rot.
  rewrite zskip_app_less by (rewrite zlen_skip by lia; unfold len in *; lia).
  rewrite zskip_zskip by lia. rewrite zfirst_app_less; [f_equal; f_equal; lia|].
  rewrite zlen_skip by lia. unfold len in *. lia.
Qed.

Lemma slice_ok l off n : 0 <= off -> 0 <= n -> off + n <= zlen l -> slice l off n = Some (zfirst n (zskip off l)).
Proof.
  intros. unfold slice. destruct (Z.leb_spec 0 off); [|lia]. destruct (Z.leb_spec 0 n); [|lia].
  destruct (Z.leb_spec (off + n) (zlen l)); [|lia]. reflexivity.
Qed.

(** ** flush *)
Lemma zfirst_len_sub {A} n (l : list A) : 0 <= n <= zlen l -> zlen (zfirst n l) = n.
Proof. intros. rewrite zlen_first by lia. lia. Qed.

Lemma pending_eq r h : ok r h ->
  zskip (zlen h - unf r) h = if oi r <=? di r then zfirst (di r - oi r) (zskip (oi r) (ring r))
                             else zskip (oi r) (ring r) ++ zfirst (di r) (ring r).
Proof.
  intros K. pose proof (unf_range r h K) as U. pose proof K as (A & B & C & E).
  unfold unf in *. destruct (Z.leb_spec (oi r) (di r)).
  - rewrite <- (zfirst_all (di r - oi r) (zskip (zlen h - (di r - oi r)) h)) by (rewrite zlen_skip by lia; lia).
    rewrite (hist_near r h (di r - oi r) (di r - oi r) K) by lia. f_equal. f_equal. lia.
  - rewrite (hist_tail r h _ K) by lia. unfold rot. rewrite zskip_app_less by (rewrite zlen_skip by lia; unfold len in *; lia).
    rewrite zskip_zskip by lia. f_equal. f_equal. lia.
Qed.

Lemma rflush_spec r h room : ok r h -> 0 <= room ->
  exists res o r', rflush r room = Some (res, o, r') /\ ok r' h /\ ring r' = ring r /\ sub r' = sub r /\ di r' = di r /\
    o = zfirst room (zskip (zlen h - unf r) h) /\ unf r' = unf r - zlen o /\ zlen o = Z.min room (unf r) /\
    total_offset r' = total_offset r + zlen o /\
    (res = OSuccess /\ unf r' = 0 \/ res = ONeedsMoreOutput /\ 0 < unf r' /\ zlen o = room).
Proof.
  intros K R. pose proof (unf_range r h K) as U. pose proof (pending_eq r h K) as P. pose proof K as (A & B & C & E).
  set (pend := zskip (zlen h - unf r) h) in *.
  assert (PL : zlen pend = unf r) by (unfold pend; rewrite zlen_skip by lia; lia).
  unfold rflush. fold (len r).
  assert (W : exists o1 oi1,
    (if di r <? oi r then let amount := Z.min (len r - oi r) room in let? o := slice (ring r) (oi r) amount in
       Some (o, if oi r + amount =? len r then 0 else oi r + amount) else Some ([], oi r)) = Some (o1, oi1) /\
    0 <= oi1 < len r /\ o1 = zfirst (if di r <? oi r then Z.min (len r - oi r) room else 0) pend /\
    zlen o1 = (if di r <? oi r then Z.min (len r - oi r) room else 0) /\
    (oi1 <= di r -> pend = o1 ++ zfirst (di r - oi1) (zskip oi1 (ring r)) /\ unf r = zlen o1 + (di r - oi1)) /\
    (di r < oi1 -> zlen o1 = room /\ unf r = zlen o1 + (di r + len r - oi1))).
  { destruct (Z.ltb_spec (di r) (oi r)) as [L|L].
    - destruct (Z.leb_spec (oi r) (di r)); [lia|]. cbv zeta. set (am := Z.min (len r - oi r) room).
      rewrite slice_ok by (unfold am, len in *; lia). cbn [bind].
      assert (LS : zlen (zskip (oi r) (ring r)) = len r - oi r) by (rewrite zlen_skip by lia; unfold len in *; lia).
      assert (UU : unf r = di r + len r - oi r) by (unfold unf; destruct (Z.leb_spec (oi r) (di r)); lia).
      exists (zfirst am (zskip (oi r) (ring r))). eexists. split; [reflexivity|].
      assert (O1 : zlen (zfirst am (zskip (oi r) (ring r))) = am) by (apply zfirst_len_sub; unfold am; lia).
      rewrite O1. split; [destruct (Z.eqb_spec (oi r + am) (len r)); unfold am in *; lia|].
      split; [rewrite P; symmetry; apply zfirst_app_less; unfold am; lia|]. split; [reflexivity|].
      destruct (Z.eqb_spec (oi r + am) (len r)) as [Q|Q].
      + split; [|intros; lia]. intros _. split; [|lia].
        rewrite zfirst_all by lia. rewrite zskip_0, Z.sub_0_r. exact P.
      + split; [intros; unfold am in *; lia|]. intros _. unfold am in *. lia.
    - destruct (Z.leb_spec (oi r) (di r)); [|lia].
      assert (UU : unf r = di r - oi r) by (unfold unf; destruct (Z.leb_spec (oi r) (di r)); lia).
      exists [], (oi r). split; [reflexivity|]. split; [lia|]. split; [reflexivity|]. split; [reflexivity|].
      cbn [app]. change (zlen (@nil Z)) with 0. split; [intros _; split; [exact P|lia]|intros; lia]. }
  destruct W as (o1 & oi1 & W1 & W2 & W3 & W4 & W5 & W6).
  match goal with |- context [bind ?x _] => replace x with (Some (o1, oi1)) by (symmetry; exact W1) end. cbn [bind].
  assert (W4' : zlen o1 <= room) by (rewrite W4; destruct (di r <? oi r); lia).
  destruct (Z.eqb_spec (zlen o1) room) as [Q|Q]; cbn [negb andb].
  - (* output full *)
    cbn [bind]. rewrite app_nil_r. eexists _, o1, _. split; [reflexivity|]. cbn [ring sub di].
    assert (U' : forall x, unf (RC (ring r) x (sub r) (di r) oi1) = if oi1 <=? di r then di r - oi1 else di r + len r - oi1) by reflexivity.
    split; [split; [exact A|split; [exact W2|split; [exact C|exact E]]]|]. split; [reflexivity|]. split; [reflexivity|]. split; [reflexivity|].
    rewrite U'. destruct (Z.leb_spec oi1 (di r)) as [Y|Y].
    + destruct (W5 Y) as (W7 & W8).
      split; [rewrite W7; rewrite <- Q; symmetry; apply zfirst_app_exact; reflexivity|]. split; [lia|]. split; [lia|]. split; [reflexivity|].
      destruct (Z.eqb_spec oi1 (di r)); [left; split; [reflexivity|lia]|right; split; [reflexivity|lia]].
    + destruct (W6 Y) as (W7 & W8). split.
      { rewrite W3. destruct (di r <? oi r); f_equal; lia. }
      split; [lia|]. split; [lia|]. split; [reflexivity|]. right. destruct (Z.eqb_spec oi1 (di r)); [lia|]. split; [reflexivity|]. lia.
  - assert (Y : oi1 <= di r) by (destruct (Z.le_gt_cases oi1 (di r)) as [Y|Y]; [exact Y|destruct (W6 Y); lia]).
    destruct (W5 Y) as (W7 & W8).
    destruct (Z.ltb_spec oi1 (di r)) as [V|V]; cbv zeta.
    + set (am := Z.min (di r - oi1) (room - zlen o1)). rewrite slice_ok by (unfold am, len in *; lia). cbn [bind].
      set (o2 := zfirst am (zskip oi1 (ring r))).
      assert (O2 : zlen o2 = am).
      { unfold o2. apply zfirst_len_sub. rewrite zlen_skip by lia. unfold am, len in *. lia. }
      assert (E2 : (if oi1 + am =? len r then 0 else oi1 + am) = oi1 + am) by (destruct (Z.eqb_spec (oi1 + am) (len r)); unfold am in *; lia).
      rewrite E2. eexists _, _, _. split; [reflexivity|]. cbn [ring sub di].
      assert (U' : forall x, unf (RC (ring r) x (sub r) (di r) (oi1 + am)) = di r - (oi1 + am)).
      { intros x. unfold unf. cbn [oi di]. destruct (Z.leb_spec (oi1 + am) (di r)); unfold am in *; lia. }
      assert (OI : 0 <= oi1 + am < len r) by (unfold am; lia).
      split; [split; [exact A|split; [exact OI|split; [exact C|exact E]]]|].
      split; [reflexivity|]. split; [reflexivity|]. split; [reflexivity|]. rewrite U', zlen_app, O2.
      split.
      { rewrite W7. rewrite zfirst_app_more by lia. f_equal. rewrite zfirst_zfirst. unfold o2, am. f_equal. lia. }
      split; [lia|]. split; [unfold am; lia|]. split; [reflexivity|]. destruct (Z.eqb_spec (oi1 + am) (di r)); [left; split; [reflexivity|lia]|right; split; [reflexivity|]].
      assert (am = room - zlen o1) by (subst am; lia). lia.
    + cbn [bind]. rewrite app_nil_r. eexists _, o1, _. split; [reflexivity|]. cbn [ring sub di].
      assert (U' : forall x, unf (RC (ring r) x (sub r) (di r) oi1) = di r - oi1).
      { intros x. unfold unf. cbn [oi di]. destruct (Z.leb_spec oi1 (di r)); lia. }
      split; [split; [exact A|split; [exact W2|split; [exact C|exact E]]]|]. split; [reflexivity|]. split; [reflexivity|]. split; [reflexivity|]. rewrite U'.
      assert (PO : pend = o1).
      { rewrite W7. replace (di r - oi1) with 0 by lia. rewrite zfirst_0, app_nil_r. reflexivity. }
      split; [rewrite PO; symmetry; apply zfirst_all; lia|]. split; [lia|]. split; [lia|]. split; [reflexivity|].
      destruct (Z.eqb_spec oi1 (di r)); [left; split; [reflexivity|lia]|lia].
Qed.

(** ** writing into the window *)
Lemma put_first mem off d : 0 <= off -> off + zlen d <= zlen mem -> zfirst (off + zlen d) (put_at mem off d) = zfirst off mem ++ d.
Proof.
  intros. unfold put_at. pose proof (zlen_nonneg d).
  rewrite app_assoc. apply zfirst_app_exact. rewrite zlen_app, zlen_first by lia. lia.
Qed.
Lemma put_skip mem off d : 0 <= off -> off + zlen d <= zlen mem -> zskip (off + zlen d) (put_at mem off d) = zskip (off + zlen d) mem.
Proof.
  intros. unfold put_at. pose proof (zlen_nonneg d).
  rewrite app_assoc. apply zskip_app_exact. rewrite zlen_app, zlen_first by lia. lia.
Qed.
Lemma rot_put rb d x : 0 <= d -> d + zlen x <= zlen rb -> rot (put_at rb d x) (d + zlen x) = zskip (zlen x) (rot rb d) ++ x.
Proof.
  intros D L. pose proof (zlen_nonneg x). unfold rot. rewrite put_first, put_skip by lia.
  rewrite zskip_app_less by (rewrite zlen_skip by lia; lia). rewrite zskip_zskip by lia. rewrite app_assoc. reflexivity.
Qed.
Definition wrap (l d : Z) : Z := if d =? l then 0 else d.
Lemma put_ok r h x s : ok r h -> di r + zlen x <= len r -> zlen x <= space_left r ->
  let r' := set_pos r (put_at (ring r) (di r) x) s (wrap (len r) (di r + zlen x)) in
  ok r' (h ++ x) /\ unf r' = unf r + zlen x /\ len r' = len r.
Proof.
  intros K D S. pose proof (unf_range r h K) as U. rewrite space_unf in S. pose proof K as (A & B & C & E). pose proof (zlen_nonneg x) as NX.
  assert (PL : zlen (put_at (ring r) (di r) x) = len r) by (apply zlen_put; unfold len in *; lia).
  cbv zeta. unfold set_pos. split; [|split; [|exact PL]].
  - set (d' := wrap (len r) (di r + zlen x)). set (rb' := put_at (ring r) (di r) x) in *.
    change (0 <= d' < zlen rb' /\ 0 <= oi r < zlen rb' /\ zlen rb' <= zlen (h ++ x) /\
            rot rb' d' = zskip (zlen (h ++ x) - zlen rb') (h ++ x)).
    rewrite PL. unfold d', wrap. clear d'. unfold rb'.
    assert (RE : rot (put_at (ring r) (di r) x) (di r + zlen x) = zskip (zlen (h ++ x) - len r) (h ++ x)).
    { rewrite rot_put by (unfold len in *; lia). rewrite E, zskip_zskip, zlen_app by lia.
      rewrite zskip_app_less by lia. f_equal. f_equal. lia. }
    split; [destruct (Z.eqb_spec (di r + zlen x) (len r)); lia|]. split; [exact B|].
    split; [rewrite zlen_app; lia|].
    destruct (Z.eqb_spec (di r + zlen x) (len r)) as [Q|Q]; [|exact RE].
    rewrite <- RE, Q. rewrite <- PL. symmetry. apply rot_end.
  - set (d' := wrap (len r) (di r + zlen x)).
    change ((if oi r <=? d' then d' - oi r else d' + zlen (put_at (ring r) (di r) x) - oi r) = unf r + zlen x).
    rewrite PL. unfold d', wrap, unf in *. clear d'.
    destruct (Z.eqb_spec (di r + zlen x) (len r)).
    + destruct (Z.leb_spec (oi r) (di r)); destruct (Z.leb_spec (oi r) 0); lia.
    + destruct (Z.leb_spec (oi r) (di r)); destruct (Z.leb_spec (oi r) (di r + zlen x)); lia.
Qed.

Lemma put_0_nil rb : put_at rb 0 [] = rb.
Proof. reflexivity. Qed.
Lemma copy_to_ring_spec r h data : ok r h ->
  exists k r', copy_to_ring r data = Some (k, r') /\ k = Z.min (zlen data) (space_left r) /\
    ok r' (h ++ zfirst k data) /\ unf r' = unf r + k /\ sub r' = sub r /\ oi r' = oi r /\ len r' = len r /\ total_offset r' = total_offset r.
Proof.
  intros K. pose proof (unf_range r h K) as U. pose proof (space_unf r) as SU. pose proof K as (A & B & C & E). pose proof (zlen_nonneg data).
  unfold copy_to_ring. fold (len r). cbv zeta.
  set (k := Z.min (zlen data) (space_left r)). set (x := zfirst k data).
  assert (KX : zlen x = k) by (apply zfirst_len_sub; unfold k; lia). rewrite KX.
  assert (K0 : 0 <= k <= space_left r) by (unfold k; lia).
  set (am := Z.min k (len r - di r)). unfold assert.
  destruct (Z.leb_spec (di r + am) (len r)); [|unfold am in *; lia].
  assert (X1 : zlen (zfirst am x) = am) by (apply zfirst_len_sub; unfold am; lia).
  destruct (put_ok r h (zfirst am x) (sub r) K) as (K1 & U1 & L1); [lia|unfold am in *; lia|]. rewrite X1 in *.
  destruct (Z.eqb_spec (di r + am) (len r)) as [Q|Q].
  - assert (X2 : zlen (zskip am x) = k - am) by (rewrite zlen_skip by (unfold am; lia); unfold am; lia). rewrite X2.
    destruct (Z.leb_spec (k - am) (len r)); [|unfold am in *; lia].
    unfold wrap in *. rewrite Q, Z.eqb_refl in *.
    set (r1 := set_pos r (put_at (ring r) (di r) (zfirst am x)) (sub r) 0) in *.
    destruct (put_ok r1 (h ++ zfirst am x) (zskip am x) (sub r) K1) as (K2 & U2 & L2).
    { rewrite X2, L1. change (di r1) with 0. unfold am in *. lia. }
    { rewrite X2, space_unf, L1, U1. lia. }
    rewrite X2 in *. unfold wrap in *. change (di r1) with 0 in *. rewrite L1 in K2, U2. rewrite Z.add_0_l in *.
    assert (NW : (k - am =? len r) = false) by (destruct (Z.eqb_spec (k - am) (len r)); unfold am in *; lia). rewrite NW in *.
    eexists _, _. split; [reflexivity|]. replace (am + (k - am)) with k by lia.
    split; [reflexivity|]. fold x. rewrite <- app_assoc, zfirst_skip in K2.
    split; [exact K2|]. split; [change (unf (set_pos r1 (put_at (ring r1) 0 (zskip am x)) (sub r) (k - am)) = unf r + k); lia|].
    split; [reflexivity|]. split; [reflexivity|]. split; [|reflexivity]. rewrite <- L1. exact L2.
  - unfold wrap in *. destruct (Z.eqb_spec (di r + am) (len r)); [contradiction|].
    assert (am = k) by (unfold am in *; lia). 
    eexists _, _. split; [reflexivity|]. split; [lia|].
    assert (XX : zfirst am x = x) by (apply zfirst_all; lia). rewrite XX in *.
    split; [replace (zfirst am data) with x by (rewrite H1; reflexivity); exact K1|]. split; [rewrite U1; lia|]. split; [reflexivity|]. split; [reflexivity|]. split; [exact L1|reflexivity].
Qed.
