(** C68: input of any origin (cut short, damaged, made up) through the Read adapter, the
    two-thread command line tool and the C API. *)
From Verif Require Import Prelude ProofList ProofZlist ModelMux ModelCmd ModelCrc ModelHeader ModelRecode ModelPriors ModelCodec ModelPm ModelTop ModelDec ModelThread ModelIo ModelTool ModelToolThread ModelFfi ModelCapi SpecCrc SpecHeader SpecIo SpecCheck SpecCapi SpecOrigin ProofCrc ProofHeader ProofCheck ProofCapi ProofTany ProofOrigin ProofOrigin2 ProofOrigin3 ProofOrigin4 ThmCheck ThmCodec SpecLz SpecEnc SpecFile ThmEnc ThmIo.

Lemma same_eq a b : same a b = true -> a = b.
Proof. unfold same. destruct (list_eq_dec Z.eq_dec a b); [auto|discriminate]. Qed.
Lemma put_in_bounds k n m buf at_ o : 0 <= n <= m -> 0 <= at_ -> at_ + zlen o <= zlen buf ->
  in_bounds (DANS k n m (put_at buf at_ o) at_ (at_ + zlen o) buf).
Proof.
  intros RN A0 A2. pose proof (zlen_nonneg o) as NO. destruct (put_at_facts buf at_ o A0 A2) as (U & _ & L).
  unfold untouched in U. apply Bool.andb_true_iff in U. destruct U as (U & U2). apply Bool.andb_true_iff in U. destruct U as (_ & U1).
  unfold in_bounds. cbn [a_code a_used a_offer a_buf a_from a_to a_before].
  split; [exact RN|]. split; [lia|]. split; [exact A2|]. split; [exact L|]. split; now apply same_eq.
Qed.

(** C68, the reader.  Whatever the source delivers, in whatever pieces and with whatever
    buffers it is read: a read that reports the end of the file means that the source
    has not failed and that its whole contents are an intact file, unless they contain
    the beginning of an end mark that does not go on as one. *)
Theorem C68_reader : forall dict wl D skip fuel cap k src rooms chunks h,
  bytes (content src) -> Forall honest src -> Forall (fun r => 1 <= r) rooms -> ~ false_mark (content src) ->
  reads (decompressing dict wl D skip fuel) cap k (greader_new decompressor_new src false) rooms = (chunks, h) ->
  reached_end chunks -> faulty src = false /\ intact skip (content src).
Proof.
  intros dict wl D skip fuel cap k src rooms chunks h B H R NF E RE.
  refine (reads_any dict wl D skip fuel cap (content src) (faulty src) B NF k rooms _ [] 0 chunks h _ _ R E RE).
  - unfold rinv, greader_new. cbn [g_p g_flushed g_off g_data g_eof g_src g_err negb]. split; [apply dinv_new|]. split; [apply oinv_new|].
    split; [reflexivity|]. split; [change (zlen (@nil Z)) with 0; lia|]. split; [reflexivity|]. split; [reflexivity|]. split; [reflexivity|]. split; [discriminate|exact H].
  - intros L. lia.
Qed.
Print Assumptions C68_reader.

(** C68, the reader on a damaged file: if the damage to all before the last 8 bytes lies
    within 32 consecutive bits the end of the file is never reported. *)
Theorem C68_reader_damage : forall dict wl D fuel cap k src rooms chunks h B B',
  content src = B' ++ trailer (crc32c 0 B) -> burst32 B B' -> bytes B -> bytes B' ->
  Forall honest src -> Forall (fun r => 1 <= r) rooms -> ~ false_mark (content src) ->
  reads (decompressing dict wl D false fuel) cap k (greader_new decompressor_new src false) rooms = (chunks, h) -> ~ reached_end chunks.
Proof.
  intros dict wl D fuel cap k src rooms chunks h B B' EC BU BB BB' H R NF E RE.
  assert (BC : bytes (content src)).
  { rewrite EC. apply Forall_app. split; [exact BB'|]. unfold trailer. cbn [le app]. unfold byte. repeat apply Forall_cons; try apply Forall_nil; try (apply Z.mod_pos_bound; reflexivity); split; (reflexivity || discriminate). }
  destruct (C68_reader dict wl D false fuel cap k src rooms chunks h BC H R NF E RE) as (_ & I).
  rewrite EC in I. exact (intact_burst B B' BB BB' BU I).
Qed.
Print Assumptions C68_reader_damage.

(** C68, the C API with one thread.  Whatever bytes are offered in whatever pieces, with
    whatever buffers and offsets: every answer keeps to the buffers and changes nothing
    else in the output buffer, what is consumed over all calls is a beginning of what was
    offered, and if the last code is 0, which says success, what was consumed is an intact file. *)
Theorem C68_c_api : forall dict wl D skip fuel calls l Y,
  Forall (fun c => bytes (d_piece c)) calls ->
  any_calls (c_decode dict wl D skip fuel) decompressor_new [] calls = (l, Y) ->
  Forall in_bounds l /\ (exists left, concat (map d_piece calls) = Y ++ left) /\
  ((exists a, In a l /\ a_code a = 0) -> intact skip Y).
Proof.
  intros dict wl D skip fuel calls l Y B E.
  refine (calls_any (c_decode dict wl D skip fuel) skip (fun X d => dinv skip X d) _ calls decompressor_new [] [] l Y (dinv_new skip) (Forall_nil _) B E).
  clear. intros X d front input buf at_ k inoff buf' to d' I BI. unfold c_decode.
  destruct (_ && _); cbn [assert]; [|discriminate].
  destruct (Z.leb_spec 0 at_) as [A0|]; cbn [andb assert]; [|discriminate]. destruct (Z.leb_spec at_ (zlen buf)) as [A1|]; cbn [assert]; [|discriminate].
  rewrite zskip_app_exact by reflexivity.
  destruct (decode dict wl D skip fuel d input (zlen buf - at_)) as [(((n, o), d1), r)|] eqn:DE; cbn [bind]; [|discriminate].
  assert (R0 : 0 <= zlen buf - at_) by lia.
  destruct (decode_any dict wl D skip fuel X _ _ _ _ _ _ _ I BI R0 DE) as (RN & LO & DI & GS).
  destruct (Z.leb_spec (at_ + zlen o) (zlen buf)) as [A2|]; cbn [assert]; [|discriminate].
  intros E. assert (k = dres_code r /\ inoff = zlen front + n /\ buf' = put_at buf at_ o /\ to = at_ + zlen o /\ d' = d1) as (-> & -> & -> & -> & ->) by (repeat split; congruence).
  replace (zlen front + n - zlen front) with n by lia.
  split; [exact RN|]. split; [|split].
  - now apply put_in_bounds.
  - intros NK. apply DI. intros ->. apply NK. reflexivity.
  - intros K. destruct r; try discriminate K. destruct (GS eq_refl) as (p & -> & PEF). exact (intact_end skip _ p (DI ltac:(discriminate)) PEF).
Qed.
Print Assumptions C68_c_api.

(** ... and with two threads, whatever the operating system lets run when. *)
Theorem C68_c_api_two_threads : forall dict wl D skip sched calls l Y,
  Forall (fun c => bytes (d_piece c)) calls ->
  any_calls (c_decode_parallel dict wl D skip) (PS pdec_new false sched) [] calls = (l, Y) ->
  Forall in_bounds l /\ (exists left, concat (map d_piece calls) = Y ++ left) /\
  ((exists a, In a l /\ a_code a = 0) -> intact skip Y).
Proof.
  intros dict wl D skip sched calls l Y B E.
  refine (calls_any (c_decode_parallel dict wl D skip) skip (fun X p => pinv skip X (ps_d p)) _ calls (PS pdec_new false sched) [] [] l Y (pinv_new skip) (Forall_nil _) B E).
  clear. intros X d front input buf at_ k inoff buf' to d' I BI. unfold c_decode_parallel.
  destruct (_ && _); cbn [assert]; [|discriminate].
  destruct (Z.leb_spec 0 at_) as [A0|]; cbn [andb assert]; [|discriminate]. destruct (Z.leb_spec at_ (zlen buf)) as [A1|]; cbn [assert]; [|discriminate].
  rewrite zskip_app_exact by reflexivity.
  destruct (parallel_decode dict wl D skip (ps_sched d) (ps_on d) (ps_d d) input (zlen buf - at_)) as [(((n, o), p1), r)|] eqn:DE; cbn [bind]; [|discriminate].
  assert (R0 : 0 <= zlen buf - at_) by lia.
  destruct (parallel_any dict wl D skip X input (zlen buf - at_) BI R0 _ _ _ _ _ _ _ I DE) as (RN & LO & DI & GS).
  destruct (Z.leb_spec (at_ + zlen o) (zlen buf)) as [A2|]; cbn [assert]; [|discriminate].
  intros E. assert (k = pres_code r /\ inoff = zlen front + n /\ buf' = put_at buf at_ o /\ to = at_ + zlen o /\ d' = p1) as (-> & -> & -> & -> & ->) by (repeat split; congruence).
  replace (zlen front + n - zlen front) with n by lia.
  split; [exact RN|]. split; [|split].
  - now apply put_in_bounds.
  - intros NK. apply DI. intros ->. apply NK. reflexivity.
  - intros K. destruct r; try discriminate K. exact (GS eq_refl).
Qed.
Print Assumptions C68_c_api_two_threads.

(** C68, the tool with two threads: if it ends with success its input begins with an
    intact file (with one thread: C55_success_means_intact). *)
Theorem C68_two_thread_tool : forall dict wl D skip sched n bs src evs f,
  bytes (content src) -> 0 <= bs ->
  tool_decompress_parallel dict wl D skip sched n bs [] src (OF [] evs) = (f, TDone) ->
  exists file rest, content src = file ++ rest /\ intact skip file.
Proof.
  intros dict wl D skip sched n bs src evs f B BS. unfold tool_decompress_parallel. cbv zeta.
  assert (RS : 0 <= real_size bs) by (unfold real_size; destruct (bs =? 0); lia).
  destruct (ploop _ _ _ _ _ _ _ _ _ _ _ _) as ((f1, e), q) eqn:E.
  intros EE. assert (e = TDone) by (destruct q as [p|]; [destruct (parallel_free _ _ _ _ p)|]; congruence). subst e.
  refine (ploop_any dict wl D skip _ _ n (PS pdec_new false sched) [] 0 src [] (OF [] evs) f1 q [] (content src) (pinv_new skip) _ _ eq_refl B E).
  - change (zlen (@nil Z)) with 0. lia.
  - change (zlen (@nil Z)) with 0. exact RS.
Qed.
Print Assumptions C68_two_thread_tool.

(** C68, no header.  If the input does not begin with a header (it is shorter than one,
    has another magic number or an illegal window size) the two-thread tool reports an
    error, having written nothing: it has not started the second thread, so nothing can
    make it hang (C63_truncated_hangs_refuted).  Eighteen turns of the main thread suffice. *)
Definition headed (F : list Z) : Prop := exists header rest, F = header ++ rest /\
  length header = 16%nat /\ firstn 4 header = [255; 229; 140; 159] /\ 10 <= nth 5 header 0 <= 24.
Definition mains (sched : list ModelThread.event) : nat :=
  length (filter (fun e => match e with ByMain => true | _ => false end) sched).
Lemma call_in_header dict wl D skip : forall sched on h input room, (1 <= mains sched)%nat ->
  let '(h1, n, r) := hp_decode h input in (forall ws, r <> HOk ws) ->
  exists sched1, (mains sched <= S (mains sched1))%nat /\ parallel_decode dict wl D skip sched on (PHeader h) input room =
    Some (Z.of_nat n, [], PS (PHeader h1) on sched1, match r with HErr _ => PFail | _ => PNeedIn end).
Proof.
  induction sched as [|e sched IH]; intros on h input room M; [cbn in M; lia|].
  destruct (hp_decode h input) as ((h1, n), r) eqn:HD. intros NR. cbn [parallel_decode].
  assert (SK : e <> ByMain -> exists sched1, (mains (e :: sched) <= S (mains sched1))%nat /\ parallel_decode dict wl D skip sched on (PHeader h) input room =
    Some (Z.of_nat n, [], PS (PHeader h1) on sched1, match r with HErr _ => PFail | _ => PNeedIn end)).
  { intros NE. assert (EM : mains (e :: sched) = mains sched) by (destruct e; [contradiction NE; reflexivity| | |]; reflexivity).
    rewrite EM in *. specialize (IH on h input room M). rewrite HD in IH. exact (IH NR). }
  destruct e; [|apply SK; discriminate..]. exists sched. split; [unfold mains; cbn [filter length]; lia|].
  unfold begin_call. rewrite HD. destruct r; [reflexivity|reflexivity|]. exfalso. exact (NR _ eq_refl).
Qed.
Lemma more_content : forall src space l src', read_more src space = Some (l, src') -> content src = l ++ content src'.
Proof.
  induction src as [|[x| |] src IH]; intros space l src'; cbn [read_more source_read content].
  - intros E. assert (l = [] /\ src' = []) as (-> & ->) by (split; congruence). reflexivity.
  - intros E. destruct (Z.ltb_spec space (zlen x)).
    + assert (l = zfirst space x /\ src' = SData (zskip space x) :: src) as (-> & ->) by (split; congruence). cbn [content]. now rewrite app_assoc, zfirst_skip.
    + assert (l = x /\ src' = src) as (-> & ->) by (split; [|congruence]; assert (l = zfirst space x) as -> by congruence; apply zfirst_all; lia). reflexivity.
  - apply IH.
  - discriminate.
Qed.
Lemma not_headed h X input post : hp_inv h X -> ~ headed (X ++ input ++ post) ->
  let '(h1, n, r) := hp_decode h input in (n <= length input)%nat /\ (forall ws, r <> HOk ws) /\
    (r = HNeedsMoreInput -> n = length input /\ hp_inv h1 (X ++ input)).
Proof.
  intros I NH. pose proof (hp_any h X input I) as A. destruct (hp_decode h input) as ((h1, n), r) eqn:HD. destruct A as (LN & A). split; [exact LN|]. split.
  - intros ws ->. destruct A as (E & L & P). apply NH. exists (hp_header h1), (skipn n input ++ post).
    apply parse_header_ok in P; [|exact L]. destruct P as (P1 & P2 & P3). split; [|split; [exact L|split; [exact P1|lia]]].
    rewrite E, <- app_assoc. f_equal. now rewrite app_assoc, firstn_skipn.
  - intros ->. assert (n = length input) as ->.
    { unfold hp_decode in HD. destruct (_ <=? _)%nat; [|congruence]. exfalso. assert (P : parse_header (hp_header h1) = HNeedsMoreInput) by (assert (h1 = fst (fst (h1, n, HNeedsMoreInput))) as -> by reflexivity; rewrite <- HD; cbn [fst hp_header]; congruence).
      clear - P. unfold parse_header in P. cbv zeta in P. repeat match type of P with (if ?b then _ else _) = _ => destruct b end; discriminate. }
    split; [reflexivity|]. now rewrite firstn_all in A.
Qed.
Lemma loop_in_header dict wl D skip bsize cap : 0 <= bsize -> 1 <= cap -> forall k h X data src sched on f,
  hp_inv h X -> ~ headed (X ++ data ++ content src) ->
  (17 + (match data with [] => 1 | _ => 0 end) <= k + length X)%nat -> (17 + (match data with [] => 1 | _ => 0 end) <= mains sched + length X)%nat ->
  exists h1 on1 sched1, ploop dict wl D skip bsize cap k (PS (PHeader h) on sched) data 0 src [] f = (f, TError, Some (PS (PHeader h1) on1 sched1)).
Proof.
  intros BS CP. induction k as [|k IH]; intros h X data src sched on f I NH K M; [destruct I as (_ & _ & LX & _); lia|].
  assert (LX : (length X < 16)%nat) by apply I.
  pose proof (not_headed h X data (content src) I NH) as A. change (zskip 0 data) with data. cbn [ploop ps_sched ps_on ps_d]. change (zskip 0 data) with data.
  assert (M1 : (1 <= mains sched)%nat) by (destruct data; lia).
  pose proof (call_in_header dict wl D skip sched on h data (bsize - zlen (@nil Z)) M1) as C.
  destruct (hp_decode h data) as ((h1, n), r). destruct A as (LN & NR & NM). destruct (C NR) as (sched1 & MS & ->). clear C.
  change (zlen (@nil Z)) with 0. rewrite !Z.sub_0_r. destruct (Z.ltb_spec (zlen data) (Z.of_nat n)) as [L|_]; [unfold zlen in L; lia|].
  destruct (Z.ltb_spec bsize 0) as [L|_]; [lia|]. cbn [orb].
  destruct r as [|e|ws]; [| |exfalso; exact (NR _ eq_refl)].
  2: { exists h1, on, sched1. reflexivity. }
  destruct (NM eq_refl) as (-> & I1). change (Z.of_nat (length data)) with (zlen data). rewrite Z.add_0_l, Z.eqb_refl. change (zlen (@nil Z)) with 0.
  destruct (Z.eqb_spec 0 cap) as [E|_]; [lia|].
  destruct (read_more src (cap - 0)) as [(l, src1)|] eqn:RM; [|exists h1, on, sched1; reflexivity].
  destruct l as [|b l]; [exists h1, on, sched1; reflexivity|]. rewrite !app_nil_r, app_nil_l.
  destruct (IH h1 (X ++ data) (b :: l) src1 sched1 on f I1) as (h2 & on2 & sched2 & E).
  - rewrite (more_content _ _ _ _ RM) in NH. now rewrite <- app_assoc.
  - rewrite app_length. destruct data; cbn [length]; lia.
  - rewrite app_length. destruct data; cbn [length]; lia.
  - exists h2, on2, sched2. exact E.
Qed.
Theorem C68_no_header : forall dict wl D skip sched n bs src evs,
  0 <= bs -> ~ headed (content src) -> (18 <= n)%nat -> (18 <= mains sched)%nat ->
  tool_decompress_parallel dict wl D skip sched n bs [] src (OF [] evs) = (OF [] evs, TError).
Proof.
  intros dict wl D skip sched n bs src evs BS NH N M. unfold tool_decompress_parallel. cbv zeta.
  assert (RS : 1 <= real_size bs) by (unfold real_size; destruct (Z.eqb_spec bs 0); lia).
  destruct (loop_in_header dict wl D skip (real_size bs) (Z.max (real_size bs) (zlen (@nil Z))) ltac:(lia) ltac:(lia) n hp_new [] [] src sched false (OF [] evs) hp_new_inv NH) as (h1 & on1 & s1 & E).
  - cbn [length]; lia.
  - cbn [length]; lia.
  - change pdec_new with (PHeader hp_new). rewrite E. reflexivity.
Qed.
Print Assumptions C68_no_header.

(** C68, the exception is needed.  After a beginning of a file that ends with a chunk,
    followed by the bytes 255 and 0, the reader reports the end of the file, though
    neither the end mark nor the checksum has been seen. *)
Definition cut_file : list event := [SData (firstn 66 demo_file); SData [255; 0]].
Lemma intact_last skip X : intact skip X -> last X 0 = 126.
Proof.
  intros (header & W & t & -> & _ & _ & _ & L & E & _). rewrite app_assoc. do 8 (destruct t as [|? t]; [discriminate L|]). destruct t; [|discriminate L].
  cbn [skipn] in E. injection E as -> -> -> ->. rewrite <- (firstn_skipn 7 [z; z0; z1; z2; 97; 110; 115; 126]). cbn [firstn skipn]. now rewrite app_assoc, last_last.
Qed.
Theorem C68_false_end_refuted : exists Y, zlen Y = 88 /\
  reads demo_dec 4096 50 (greader_new decompressor_new cut_file false) [1000; 1000] = ([Y; []], Fine) /\
  ~ intact false (content cut_file) /\ ~ intact true (content cut_file).
Proof.
  exists (meaning demo_dict (window 10) (concat demo_batches)). split; [vm_compute; reflexivity|]. split; [vm_compute; reflexivity|].
  split; intros I; apply intact_last in I; revert I; vm_compute; discriminate.
Qed.
Print Assumptions C68_false_end_refuted.

(** After a header and the bytes 255 255 it never returns. *)
Definition stuck_file : list Z := make_header 10 ++ [255; 255].
Definition stuck_dec : decompressor :=
  match decode demo_dict demo_wl (DIMS 4 4 4) false 1000 decompressor_new stuck_file 1000 with Some (_, _, d, _) => d | None => decompressor_new end.
Lemma stuck_first : decode demo_dict demo_wl (DIMS 4 4 4) false 1000 decompressor_new stuck_file 1000 = Some (17, [], stuck_dec, DNeedIn).
Proof. vm_compute. reflexivity. Qed.
Lemma stuck_again : decode demo_dict demo_wl (DIMS 4 4 4) false 1000 stuck_dec [255] 1000 = Some (0, [], stuck_dec, DNeedIn).
Proof. vm_compute. reflexivity. Qed.
Theorem C68_stall_refuted : forall k,
  reads demo_dec 4096 k (greader_new decompressor_new [SData stuck_file] false) [1000] = ([], Hung).
Proof.
  assert (LOOP : forall k, read_loop demo_dec 4096 k (GR stuck_dec stuck_file 17 true true false []) 1000 1 false [] = RSpin).
  { induction k as [|k IH]; [reflexivity|]. cbn [read_loop g_eof negb]. change ((1000 - zlen (@nil Z) =? 1000) && (true || false)) with true. cbn iota. cbn [negb].
    unfold fetch. cbn [g_data g_off g_src g_eof negb]. rewrite Bool.andb_false_r. cbn iota. change (1 =? 0) with false. cbn iota. cbn [ModelIo.process demo_dec decompressing g_p g_data g_off].
    change (zfirst 1 (zskip 17 stuck_file)) with [255]. change (1000 - zlen (@nil Z)) with 1000. rewrite stuck_again. cbn [bind dec_pres].
    change ((1 <? 0) || (1000 <? zlen (@nil Z))) with false. cbn iota. change (1 - 0) with 1. change (1 =? 0) with false. cbn [andb]. cbn iota. change (17 + 0) with 17. cbn [app]. exact IH. }
  intros k. cbn [reads]. unfold gread, greader_new. cbn [g_data g_off negb]. change (zlen (@nil Z) - 0) with 0.
  enough (read_loop demo_dec 4096 k (GR decompressor_new [] 0 false true false [SData stuck_file]) 1000 0 false [] = RSpin) as -> by reflexivity.
  destruct k as [|k]; [reflexivity|]. cbn [read_loop g_eof negb]. change ((1000 - zlen (@nil Z) =? 1000) && (true || true)) with true. cbn iota. cbn [negb].
  assert (F1 : fetch 4096 (GR decompressor_new [] 0 false true false [SData stuck_file]) 0 false = (GR decompressor_new stuck_file 0 false true false [], 18, false, false)) by reflexivity.
  rewrite F1. cbn iota. change (18 =? 0) with false. cbn iota. cbn [ModelIo.process demo_dec decompressing g_p g_data g_off g_eof g_flushed g_err g_src].
  change (zfirst 18 (zskip 0 stuck_file)) with stuck_file. change (1000 - zlen (@nil Z)) with 1000. rewrite stuck_first. cbn [bind dec_pres].
  change ((18 <? 17) || (1000 <? zlen (@nil Z))) with false. cbn iota. change (18 - 17) with 1. change (1 =? 0) with false. cbn [andb g_err]. cbn iota. change (0 + 17) with 17. cbn [app].
  destruct k as [|k]; [reflexivity|]. cbn [read_loop g_eof negb]. change ((1000 - zlen (@nil Z) =? 1000) && (true || true)) with true. cbn iota. cbn [negb].
  assert (F2 : fetch 4096 (GR stuck_dec stuck_file 17 false true false []) 1 false = (GR stuck_dec stuck_file 17 true true false [], 1, false, false)) by reflexivity.
  rewrite F2. cbn iota. change (1 =? 0) with false. cbn iota. cbn [ModelIo.process demo_dec decompressing g_p g_data g_off g_eof g_flushed g_err g_src].
  change (zfirst 1 (zskip 17 stuck_file)) with [255]. change (1000 - zlen (@nil Z)) with 1000. rewrite stuck_again. cbn [bind dec_pres].
  change ((1 <? 0) || (1000 <? zlen (@nil Z))) with false. cbn iota. change (1 - 0) with 1. change (1 =? 0) with false. cbn [andb g_err]. cbn iota. change (17 + 0) with 17. cbn [app]. apply LOOP.
Qed.
Print Assumptions C68_stall_refuted.

(** A file has no false mark: checked by reading the chunks. *)
Fixpoint no_false (n : nat) (W : list Z) : bool :=
  match n with
  | O => false
  | S n =>
      match W with
      | [] => true
      | b :: t =>
          if b =? 255 then match t with [] => true | c :: t => (c =? 254) && match t with [] => true | c :: _ => c =? 255 end end
          else if b <? 16 then match t with l :: h :: t => no_false n (zskip (l + 256 * h + 1) t) | _ => true end
          else no_false n (zskip ((1024 * 4 ^ (b / 16)) mod 2 ^ 32) t)
      end
  end.
Lemma chunks_front pre : chunks pre -> pre = [] \/
  (exists b l h data tl, pre = b :: l :: h :: data ++ tl /\ b < 16 /\ zlen data = l + 256 * h + 1 /\ chunks tl) \/
  (exists b data tl, pre = b :: data ++ tl /\ 16 <= b < 255 /\ zlen data = (1024 * 4 ^ (b / 16)) mod 2 ^ 32 /\ chunks tl).
Proof.
  induction 1 as [|pre b l h data C IH B L|pre b data C IH B L]; [now left| |]; right.
  - destruct IH as [->|[(b1 & l1 & h1 & d1 & tl & -> & X1 & X2 & X3)|(b1 & d1 & tl & -> & X1 & X2 & X3)]].
    + left. exists b, l, h, data, []. rewrite app_nil_r. split; [reflexivity|]. split; [exact B|]. split; [exact L|constructor].
    + left. exists b1, l1, h1, d1, (tl ++ b :: l :: h :: data). split; [cbn [app]; now rewrite <- app_assoc|]. split; [exact X1|]. split; [exact X2|]. now constructor.
    + right. exists b1, d1, (tl ++ b :: l :: h :: data). split; [cbn [app]; now rewrite <- app_assoc|]. split; [exact X1|]. split; [exact X2|]. now constructor.
  - destruct IH as [->|[(b1 & l1 & h1 & d1 & tl & -> & X1 & X2 & X3)|(b1 & d1 & tl & -> & X1 & X2 & X3)]].
    + right. exists b, data, []. rewrite app_nil_r. split; [reflexivity|]. split; [exact B|]. split; [exact L|constructor].
    + left. exists b1, l1, h1, d1, (tl ++ b :: data). split; [cbn [app]; now rewrite <- app_assoc|]. split; [exact X1|]. split; [exact X2|]. now constructor.
    + right. exists b1, d1, (tl ++ b :: data). split; [cbn [app]; now rewrite <- app_assoc|]. split; [exact X1|]. split; [exact X2|]. now constructor.
Qed.
Lemma no_false_ok : forall n W, no_false n W = true -> ~ broken_mark W.
Proof.
  induction n as [|n IH]; intros W; cbn [no_false]; [discriminate|]. intros E (pre & rest & -> & C & M).
  destruct (chunks_front pre C) as [->|[(b & l & h & d & tl & -> & B & L & CT)|(b & d & tl & -> & B & L & CT)]].
  - destruct M as [(c & t & -> & NC)|(c & t & -> & NC)]; cbn [app] in E; change (255 =? 255) with true in E; cbn iota in E; apply Bool.andb_true_iff in E; destruct E as (E1 & E2); [now apply Z.eqb_eq in E1|now apply Z.eqb_eq in E2].
  - cbn [app] in E. destruct (Z.eqb_spec b 255); [lia|]. destruct (Z.ltb_spec b 16); [|lia]. rewrite <- app_assoc, zskip_app_exact in E by exact L.
    apply (IH _ E). exists tl, rest. repeat split; assumption.
  - cbn [app] in E. destruct (Z.eqb_spec b 255); [lia|]. destruct (Z.ltb_spec b 16); [lia|]. rewrite <- app_assoc, zskip_app_exact in E by exact L.
    apply (IH _ E). exists tl, rest. repeat split; assumption.
Qed.
Lemma no_false_file n X : no_false n (skipn 16 X) = true -> ~ false_mark X.
Proof. intros E (header & W & -> & L & M). rewrite <- L, skipn_app, skipn_all, Nat.sub_diag in E. exact (no_false_ok n W E M). Qed.

Definition bad_bit : list Z := firstn 30 demo_file ++ [nth 30 demo_file 0 - 1] ++ skipn 31 demo_file.
Definition any_demo (src : list Z) := reads demo_dec 4096 50 (greader_new decompressor_new [SData (firstn 20 src); SIntr; SData (skipn 20 src)] false) [50; 50; 50].
Example C68_case :
  (bytes demo_file /\ ~ false_mark demo_file /\ map (@length Z) (fst (any_demo demo_file)) = [50; 38; 0]%nat) /\
  (~ false_mark bad_bit /\ snd (any_demo bad_bit) = Failed) /\
  (exists l Y, any_calls (c_decode demo_dict demo_wl (DIMS 4 4 4) false 1000) decompressor_new [] [DCALL [7] (firstn 40 demo_file) (repeat 9 60) 3; DCALL [] (skipn 40 demo_file) (repeat 9 60) 5; DCALL [8; 8] [1; 2] (repeat 9 60) 5] = (l, Y) /\
     map a_code l = [1; 2; 0] /\ map a_to l = [3; 60; 38] /\ Y = demo_file) /\
  ~ headed [255; 229; 140] /\ ~ headed (repeat 77 40).
Proof.
  split; [|split; [|split; [|split]]].
  - split; [repeat constructor; vm_compute; try reflexivity; discriminate|]. split; [apply (no_false_file 50); vm_compute; reflexivity|vm_compute; reflexivity].
  - split; [apply (no_false_file 50); vm_compute; reflexivity|vm_compute; reflexivity].
  - eexists. eexists. split; [vm_compute; reflexivity|]. vm_compute. repeat split; reflexivity.
  - intros (h & r & E & L & _). apply (f_equal (@length Z)) in E. rewrite app_length, L in E. cbn in E. lia.
  - intros (h & r & E & L & M & _). assert (EF : firstn 4 (repeat 77 40) = firstn 4 (h ++ r)) by now rewrite E. rewrite firstn_app, M, L in EF. discriminate EF.
Qed.
