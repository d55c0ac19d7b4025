(** Specification for C27. *)
From Verif Require Import Base.Prelude Model.Osm Model.Reuse Spec.HandlerSpec.

(** a handler cannot get at objects other than those it holds or is given *)
Definition honest (r : reading) : Prop :=
  (forall l, incl (rd_before r l) l) /\ (forall l a, incl (rd_after r l a) (a :: l)).
(** all writes go to the object being read *)
Definition writes_own (r : reading) : Prop := forall x, In x (rd_writes r) -> fst x = rd_type r.
(** a pointer is held all the time while the objects are read *)
Fixpoint held_through (a : addr) (w : world) (rs : list reading) : Prop :=
  In a (w_held w) /\
  match rs with
  | [] => True
  | r :: rest => In a (w_held (read_before r w)) /\ held_through a (read_one w r) rest
  end.
(** what a handler was given: the object as it was when the callback was made *)
Definition given (w : world) (r : reading) : option (addr * object) :=
  match sl_get (rd_type r) (w_slots (read_fill r w)) with
  | Some a => Some (a, w_mem (read_fill r w) a)
  | None => None
  end.
(** an object of a known type, read without touching anything else *)
Definition reading_ok (r : reading) : Prop := object_type (rd_type r) /\ honest r /\ writes_own r.
