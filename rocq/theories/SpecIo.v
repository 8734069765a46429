(** Using the std::io adapters. *)
From Verif Require Import Prelude ModelMux ModelIo.

(** The bytes a source delivers before it ends or fails, and whether it fails. *)
Fixpoint content (src : list event) : list Z :=
  match src with
  | SData l :: src => l ++ content src
  | SIntr :: src => content src
  | SErr :: _ | [] => []
  end.
Fixpoint faulty (src : list event) : bool :=
  match src with
  | SErr :: _ => true
  | _ :: src => faulty src
  | [] => false
  end.
(** A successful read of the source returns at least one byte unless the source has ended. *)
Definition honest (e : event) : Prop := match e with SData [] => False | _ => True end.

(** How a series of calls ended: all calls made; a call returned an error; a call did not
    return; a call panicked. *)
Inductive health := Fine | Failed | Hung | Crashed.
(** One read per element of [rooms], the sizes of the caller's buffers; what each read
    returned.  The first read that does not return Ok is the last. *)
Fixpoint reads {P} (pr : processor P) (cap : Z) (fuel : nat) (g : greader) (rooms : list Z) : list (list Z) * health :=
  match rooms with
  | [] => ([], Fine)
  | room :: rooms =>
      match gread pr cap fuel g room with
      | ROk o g => let '(cs, h) := reads pr cap fuel g rooms in (o :: cs, h)
      | RErr _ => ([], Failed)
      | RSpin => ([], Hung)
      | RPanic => ([], Crashed)
      end
  end.
(** [reads] until some read returned no byte: the end of the file, for the caller. *)
Definition reached_end (chunks : list (list Z)) : Prop := exists c1 c2, chunks = c1 ++ [] :: c2.

(** One write per element of [bufs], then a flush if [fl]; what the inner writer holds. *)
Fixpoint writes {P} (pr : processor P) (cap : Z) (fuel : nat) (g : gwriter) (bufs : list (list Z)) : gwriter * health :=
  match bufs with
  | [] => (g, Fine)
  | buf :: bufs =>
      match gwrite pr cap fuel g buf with
      | WOk n g => if n =? zlen buf then writes pr cap fuel g bufs else (g, Crashed)
      | WErr g => (g, Failed)
      | WSpin => (g, Hung)
      | WPanic => (g, Crashed)
      end
  end.
Definition flushed {P} (pr : processor P) (cap : Z) (fuel : nat) (t : @gwriter P * health) : @gwriter P * health :=
  match t with
  | (g, Fine) =>
      match gflush pr cap fuel g with
      | WOk _ g => (g, Fine)
      | WErr g => (g, Failed)
      | WSpin => (g, Hung)
      | WPanic => (g, Crashed)
      end
  | t => t
  end.
