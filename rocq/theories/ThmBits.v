(** Property theorems C42 and C43 (register queue, bit-level coders). *)
From Verif Require Import Prelude ModelAns ModelCdf SpecAns SpecCdf ModelBits SpecBits ProofBits.

(** C42.  Any pushes and pops, in debug and in release builds, give the results
    of a FIFO byte queue of capacity eight, as long as no single pop empties a
    full register. *)
Theorem C42_register_queue_fifo : forall debug ops,
  Forall op_ok ops -> no_full_pop [] ops -> rq_run debug rq_new ops = Some (fifo [] ops).
Proof. exact register_queue_fifo. Qed.
Print Assumptions C42_register_queue_fifo.

(** Popping all eight bytes at once panics in a debug build, and in a release
    build leaves stale bits that corrupt the next push. *)
Theorem C42_full_pop_refuted :
  rq_run true rq_new [QPush [1; 2; 3; 4; 5; 6; 7; 8]; QPop 8] = None /\
  let ops := [QPush [1; 2; 3; 4; 5; 6; 7; 8]; QPop 8; QPush [2]; QPop 1] in
  fifo [] ops = [QTook 8; QGave [1; 2; 3; 4; 5; 6; 7; 8]; QTook 1; QGave [2]] /\
  rq_run false rq_new ops = Some [QTook 8; QGave [1; 2; 3; 4; 5; 6; 7; 8]; QTook 1; QGave [3]].
Proof. vm_compute. auto. Qed.
Print Assumptions C42_full_pop_refuted.

Example C42_case :
  let ops := [QPush [10; 20; 255]; QPop 2; QPush [1; 2; 3; 4; 5; 6; 7; 8; 9]; QPop 7; QPop 5] in
  Forall op_ok ops /\ no_full_pop [] ops /\
  fifo [] ops = [QTook 3; QGave [10; 20]; QTook 7; QGave [255; 1; 2; 3; 4; 5; 6]; QGave [7]].
Proof.
  cbv zeta. split; [|split; [vm_compute; intuition discriminate|reflexivity]].
  repeat (apply Forall_cons; [cbn [op_ok]; try lia; repeat (apply Forall_cons; [unfold byte; lia|]); apply Forall_nil|]). apply Forall_nil.
Qed.

(** C43.  Over any bit coder that round trips bits, the default nibble coder
    round trips every list of nibbles under codable distributions (and never
    divides by zero), and the default eight bit coder every eight bits. *)
Theorem C43_nibble_coding : forall E D (put_bit : E -> bool -> Z -> E) (get_bit : D -> Z -> bool * D) e0 start,
  bit_coder_round_trips put_bit get_bit e0 start ->
  forall items, Forall (fun nc => nibble (fst nc) /\ codable (snd nc)) items ->
  exists e d', put_nibbles put_bit e0 items = Some e /\
    get_nibbles get_bit (start e) (map snd items) = Some (map fst items, d').
Proof. exact nibble_coding. Qed.
Print Assumptions C43_nibble_coding.

Theorem C43_byte_coding : forall E D (put_bit : E -> bool -> Z -> E) (get_bit : D -> Z -> bool * D) e0 start,
  bit_coder_round_trips put_bit get_bit e0 start ->
  forall bits probs, length bits = 8%nat -> length probs = 8%nat -> bytes probs ->
  exists d', get_bits get_bit (start (put_bits put_bit e0 bits probs)) probs = (bits, d').
Proof. exact byte_coding. Qed.
Print Assumptions C43_byte_coding.

(** The ANS coder's single bits round trip for every probability byte
    (including 0, which it treats as 1). *)
Theorem C43_ans_bits : forall log, Forall (fun bp => byte (snd bp)) log ->
  exists out, ans_encode (map (fun bp => ans_put_bit (fst bp) (snd bp)) log) = Some out /\
    forall pieces tail, concat pieces = out ++ tail ->
    exists d rest, ans_decode dec_new (map (fun bp => ans_get_bit (snd bp)) log) pieces = DOk (map fst log) d rest /\ concat rest = tail.
Proof. exact ans_bits. Qed.
Print Assumptions C43_ans_bits.

(** A bit coder that keeps the bits in a list and checks the probabilities. *)
Definition list_put (l : list (bool * Z)) (b : bool) (p : Z) := l ++ [(b, p)].
Definition list_get (l : list (bool * Z)) (p : Z) : bool * list (bool * Z) :=
  match l with
  | (b, q) :: l => ((if p =? q then b else negb b), l)
  | [] => (false, [])
  end.
Example C43_case : bit_coder_round_trips list_put list_get [] (fun l => l) /\
  Forall (fun nc => nibble (fst nc) /\ codable (snd nc)) [(13, cdf_default); (2, cdf_default)].
Proof.
  split.
  - intros log _.
    assert (P : forall l e, put_log list_put e l = e ++ l).
    { induction l as [|(b, p) l IH]; intros e; [now rewrite app_nil_r|]. unfold put_log in *. cbn [fold_left]. rewrite IH. unfold list_put. cbn [fst snd]. now rewrite <- app_assoc. }
    rewrite P. cbn [app]. exists []. induction log as [|(b, p) log IH]; [reflexivity|].
    cbn [answers list_get]. rewrite Z.eqb_refl. exists log. now split.
  - repeat (apply Forall_cons; [split; [unfold nibble; cbn [fst]; lia|]|]); [..|apply Forall_nil];
      (split; [reflexivity|]; split; [split; [reflexivity|discriminate]|]);
      apply nibble_cases; vm_compute; discriminate.
Qed.
