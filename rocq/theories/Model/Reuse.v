(** Sharing of objects between a reader and its handlers: input.hpp 171-208.
    Memory is a function from addresses to objects; shared pointers held by handlers are a list
    of addresses (with repetition).  The reader owns one shared pointer per object type.
    Simplification: memory is never given back, so an address is never used twice; handlers
    that write into the objects they get (EndTime, CoordinatesForWays) are not modelled here. *)
From Verif Require Import Base.Prelude Model.Osm.

Definition addr := nat.
(** input.hpp 232-234: m_node, m_way, m_relation *)
Record slots := mkSlots { sl_node : option addr; sl_way : option addr; sl_rel : option addr }.
Definition sl_get (t : otype) (s : slots) : option addr :=
  match t with NODE => sl_node s | WAY => sl_way s | RELATION => sl_rel s | _ => None end.
Definition sl_put (t : otype) (a : option addr) (s : slots) : slots :=
  match t with
  | NODE => mkSlots a (sl_way s) (sl_rel s)
  | WAY => mkSlots (sl_node s) a (sl_rel s)
  | RELATION => mkSlots (sl_node s) (sl_way s) a
  | _ => s
  end.
Record world := mkW { w_mem : addr -> object; w_next : addr; w_slots : slots; w_held : list addr }.

(** Node(), Way(2000), Relation(): the capacity of a way does not matter *)
Definition fresh (t : otype) : object :=
  match t with WAY => OWay way_new | RELATION => ORel relation_new | _ => ONode node_new end.
Definition mem_put (m : addr -> object) (a : addr) (o : object) : addr -> object :=
  fun b => if Nat.eqb b a then o else m b.

(** input.hpp 171-208: prepare_node, prepare_way, prepare_relation; unique(): nobody but the
    reader holds the pointer *)
Definition prepare (t : otype) (w : world) : world :=
  match sl_get t (w_slots w) with
  | Some a =>
      if existsb (Nat.eqb a) (w_held w)
      then mkW (mem_put (w_mem w) (w_next w) (fresh t)) (S (w_next w)) (sl_put t (Some (w_next w)) (w_slots w)) (w_held w)
      else mkW (mem_put (w_mem w) a (fresh t)) (w_next w) (w_slots w) (w_held w)
  | None => mkW (mem_put (w_mem w) (w_next w) (fresh t)) (S (w_next w)) (sl_put t (Some (w_next w)) (w_slots w)) (w_held w)
  end.

(** A write of the reader into one of its objects, if it has one. *)
Definition write (x : otype * (object -> object)) (w : world) : world :=
  match sl_get (fst x) (w_slots w) with
  | Some a => mkW (mem_put (w_mem w) a (snd x (w_mem w a))) (w_next w) (w_slots w) (w_held w)
  | None => w
  end.

(** Reading one object: a handler may drop pointers in the before/after callbacks, then the
    reader prepares and fills the object and hands it to the handler, which keeps whatever it
    likes of what it held and of what it got. *)
Record reading := mkReading {
  rd_type : otype;
  rd_before : list addr -> list addr;
  rd_writes : list (otype * (object -> object));
  rd_after : list addr -> addr -> list addr }.
Definition hold (l : list addr) (w : world) : world := mkW (w_mem w) (w_next w) (w_slots w) l.
Definition read_before (r : reading) (w : world) : world := hold (rd_before r (w_held w)) w.
Definition read_fill (r : reading) (w : world) : world :=
  fold_left (fun w x => write x w) (rd_writes r) (prepare (rd_type r) (read_before r w)).
Definition read_one (w : world) (r : reading) : world :=
  let w1 := read_fill r w in
  match sl_get (rd_type r) (w_slots w1) with
  | Some a => hold (rd_after r (w_held w1) a) w1
  | None => w1
  end.
Definition read_all (w : world) (rs : list reading) : world := fold_left read_one rs w.
(** at the start of a file nothing is shared *)
Definition world_new (m : addr -> object) : world := mkW m 0%nat (mkSlots None None None) [].

(** input/pbf.hpp: all fields are set through the reference prepare_*() returned, so all
    writes go to the object being read. *)
Definition pbf_reading (t : otype) (bef : list addr -> list addr) (fs : list (object -> object)) (aft : list addr -> addr -> list addr) : reading :=
  mkReading t bef (map (fun f => (t, f)) fs) aft.
(** input/xml.hpp 145-163: init_object writes lon and lat attributes to m_node, whatever kind of
    element they are on; everything else goes to the object being read. *)
Inductive xml_write := XLonLat (f : position -> position) | XOther (f : object -> object).
Definition set_pos (f : position -> position) (o : object) : object :=
  match o with ONode n => ONode (mkNode (n_attrs n) (f (n_pos n))) | _ => o end.
Definition xml_reading (t : otype) (bef : list addr -> list addr) (xs : list xml_write) (aft : list addr -> addr -> list addr) : reading :=
  mkReading t bef (map (fun x => match x with XLonLat f => (NODE, set_pos f) | XOther f => (t, f) end) xs) aft.
