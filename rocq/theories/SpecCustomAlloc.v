(** What a program may do with the allocator of the example program. *)
From Verif Require Import Prelude ModelMux ModelCustomAlloc.

(** a block the program holds: where, how many bytes, with which opaque pointer *)
Record blk := BL { b_ptr : Z; b_size : Z; b_opaque : Z }.
Definition apart (p n q k : Z) : Prop := p + n <= q \/ q + k <= p.
Definition inside (b : blk) (a : Z) : Prop := b_ptr b <= a < b_ptr b + b_size b.
(** free takes back a region malloc gave and no other *)
Inductive give_back : option Z -> list (Z * Z) -> list (Z * Z) -> Prop :=
| gb_none raws : give_back None raws raws
| gb_some a n r1 r2 : give_back (Some a) (r1 ++ (a, n) :: r2) (r1 ++ r2).
(** malloc: memory that is nowhere in use *)
Definition fresh (huge got : Z) (raws : list (Z * Z)) (n : Z) : Prop :=
  0 < got /\ got + n <= 2 ^ 64 /\ apart got n huge BUFFER /\ Forall (fun r => apart got n (fst r) (snd r)) raws.
Definition request (huge fake : Z) (s : heap) (size opaque : Z) : Prop :=
  0 <= size /\ size + 52 < 2 ^ 64 /\ 0 <= opaque < 2 ^ 64 /\ (opaque = fake -> h_off s + size + 52 <= BUFFER).
(** Everything that can have happened: the state, the blocks held, the regions malloc gave
    that were not given back, the number of blocks ever taken from the static buffer.
    The program frees what it holds, with the opaque pointer it was allocated with, and
    writes only inside its blocks.  From the static buffer it asks no more than there is. *)
Inductive history (huge fake : Z) : heap -> list blk -> list (Z * Z) -> Z -> Prop :=
| hi_new m : history huge fake (HP m 0) [] [] 0
| hi_malloc s live raws k opaque size got s' p asked : history huge fake s live raws k -> request huge fake s size opaque ->
    custom_malloc huge fake s opaque size got = Some (s', p, asked) -> (forall n, asked = Some n -> fresh huge got raws n) ->
    history huge fake s' (BL p size opaque :: live) (match asked with Some n => (got, n) :: raws | None => raws end) (if opaque =? fake then k + 1 else k)
| hi_free s l1 b l2 raws k s' freed raws' : history huge fake s (l1 ++ b :: l2) raws k ->
    custom_free huge fake s (b_opaque b) (b_ptr b) = Some (s', freed) -> give_back freed raws raws' ->
    history huge fake s' (l1 ++ l2) raws' k
| hi_write s live raws k b a x : history huge fake s live raws k -> In b live -> inside b a -> 0 <= x < 256 ->
    history huge fake (HP (store (h_mem s) a [x]) (h_off s)) live raws k.
