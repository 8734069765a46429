(** Property theorems C01-C03 (ANS entropy coder). *)
From Verif Require Import Prelude ModelAns SpecAns ProofAnsRt ProofAnsDec.

(** C01.  Each item is (lookup used by the decoder, symbol, interval used by the
    encoder).  Encoding succeeds, and decoding the produced bytes, followed by
    anything and delivered in any pieces, returns the symbols and leaves exactly
    what follows. *)
Theorem C01_ans_roundtrip : forall (A : Type) (items : list (query A * A * (Z * Z))),
  Forall (fun '(qy, a, sf) => codes qy a sf) items ->
  exists out, ans_encode (map snd items) = Some out /\
    forall pieces tail, concat pieces = out ++ tail ->
    exists d rest, ans_decode dec_new (map (fun x => fst (fst x)) items) pieces =
      DOk (map (fun x => snd (fst x)) items) d rest /\ concat rest = tail.
Proof. exact @ans_roundtrip. Qed.
Print Assumptions C01_ans_roundtrip.

(** Three symbols of a three-letter alphabet. *)
Definition ex_query : query Z := fun off =>
  if off <? 100 then (0, 0, 100) else if off <? 20000 then (1, 100, 19900) else (2, 20000, 12768).
Example C01_example :
  Forall (fun '(qy, a, sf) => codes qy a sf)
    [(ex_query, 2, (20000, 12768)); (ex_query, 0, (0, 100)); (ex_query, 1, (100, 19900))].
Proof.
  repeat constructor; cbn [fst snd]; try lia; intros off H; unfold ex_query;
    destruct (Z.ltb_spec off 100), (Z.ltb_spec off 20000); try lia; reflexivity.
Qed.

(** C02.  Any two ways of cutting the same bytes (valid or not) into pieces. *)
Theorem C02_ans_input_split : forall (A : Type) (qs : list (query A)) p1 p2,
  concat p1 = concat p2 ->
  observe (ans_decode dec_new qs p1) = observe (ans_decode dec_new qs p2).
Proof. exact @ans_split. Qed.
Print Assumptions C02_ans_input_split.

Example C02_example :
  observe (ans_decode dec_new [ex_query; ex_query]
    [[1; 2]; []; [3; 4; 5; 6; 7; 8; 1; 2; 3]; [4]; [5; 6; 7; 8; 9]]) = Some ([1; 1], inr [9]).
Proof. vm_compute. reflexivity. Qed.

(** C03.  Running the encoder's chunk loop over the recorded symbols (every
    list, so every prefix of every chunk) does not panic, keeps both states in
    range and uses at most two bytes of the buffer per symbol; a whole encode
    never panics. *)
Theorem C03_ans_no_overflow : forall l,
  Forall (fun p => legal (fst p) (snd p)) l -> Z.of_nat (length l) <= 65536 ->
  exists qs a b,
    flush_loop (sf_bytes l) bs_new ENC_START_STATE ENC_START_STATE = Some (qs, a, b) /\
    2 ^ 31 <= a < 2 ^ 63 /\ 2 ^ 31 <= b < 2 ^ 63 /\
    Z.of_nat (length (content qs)) <= 2 * Z.of_nat (length l).
Proof. exact flush_loop_range. Qed.
Print Assumptions C03_ans_no_overflow.

Theorem C03_ans_encode_total : forall sfs,
  Forall (fun p => legal (fst p) (snd p)) sfs ->
  exists out, ans_encode sfs = Some out /\
    Z.of_nat (length out) <=
    2 * Z.of_nat (length sfs) + 16 * ((Z.of_nat (length sfs) + 65535) / 65536).
Proof. exact ans_encode_size. Qed.
Print Assumptions C03_ans_encode_total.

Example C03_example :
  Forall (fun p => legal (fst p) (snd p)) [(0, 1); (32767, 1); (5, 32763)] /\
  ans_encode [(0, 1); (32767, 1); (5, 32763)] <> None.
Proof. split; [repeat constructor; cbn; lia|]. vm_compute. discriminate. Qed.
