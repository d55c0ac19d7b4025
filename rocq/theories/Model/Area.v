(** Areas with their geometry, and geometries for the GEOS and OGR libraries.
    Models /repo/include/osmium/osm/area.hpp, geometry/multipolygon.hpp, geometry/geos.hpp, geometry/ogr.hpp and
    geometry/ogr_multipolygon.hpp.
    The heap holds the GEOS multipolygons that areas point to.  GEOS checks the points of rings and lines,
    these checks are parameters.  Memory lost when such a check throws is left out. *)
From Verif Require Import Base.Prelude Model.Osm Model.Float Model.Geom.

Definition point := (double * double)%type.
(** geometry/geos.hpp 61-63: create_geos_coordinate *)
Definition geos_coordinate (p : position) : point := (pos_lon p, pos_lat p).
(** the loops of geos.hpp 81-89, 101-109 and ogr.hpp 56-64, 76-84: push_back or addPoint *)
Definition push_all (ns : list way_node) : list point := fold_left (fun c n => c ++ [geos_coordinate (wn_pos n)]) ns [].
Definition collect (g : from_way) : list point :=
  if fw_reverse g then push_all (rev (fw_nodes g)) else push_all (fw_nodes g).

(** geometry.hpp 73: NoGeometry; an exception of GEOS *)
Definition ENoGeometry : exn := EOther 12.
Definition EGeos : exn := EOther 13.

Section Geos.
  (** the constructors of geos::geom::LineString and LinearRing accept these points *)
  Variable line_valid ring_valid : list point -> bool.
  (** geos.hpp 79-92: create_geos_geometry of a line string *)
  Definition geos_line (g : from_way) : outcome geos :=
    if line_valid (collect g) then Ok (GLine (collect g)) else Throw EGeos.
  (** geos.hpp 99-113: create_geos_geometry of a polygon *)
  Definition geos_polygon (g : from_way) : outcome geos :=
    if ring_valid (collect g) then Ok (GPolygon (collect g) []) else Throw EGeos.

  (* ---- areas and the heap ---- *)
  Record heap := mkHeap { h_next : nat; h_cell : nat -> option geos }.
  Definition alloc (g : geos) (h : heap) : nat * heap :=
    (h_next h, mkHeap (S (h_next h)) (fun a => if Nat.eqb a (h_next h) then Some g else h_cell h a)).
  Definition deref (a : nat) (h : heap) : outcome geos := match h_cell h a with Some g => Ok g | None => UB end.
  (** delete; of a null pointer it does nothing *)
  Definition release (p : option nat) (h : heap) : outcome heap :=
    match p with
    | None => Ok h
    | Some a => match h_cell h a with
                | Some _ => Ok (mkHeap (h_next h) (fun b => if Nat.eqb b a then None else h_cell h b))
                | None => UB
                end
    end.
  (** area.hpp 61-62: m_node_list, m_geos_geometry *)
  Record area := mkArea { a_attrs : attrs; a_nodes : list way_node; a_geom : option nat }.
  (** an object that has not been created, exists, is destroyed *)
  Inductive life (A : Type) := Unborn | Alive (a : A) | Dead.
  Arguments Unborn {A}. Arguments Alive {A} a. Arguments Dead {A}.
  (** views: multipolygon.hpp 101: m_area, a reference *)
  Record world := mkWorld { w_heap : heap; w_area : nat -> life area; w_view : nat -> life nat }.
  Definition put {A} (f : nat -> A) (x : nat) (v : A) : nat -> A := fun y => if Nat.eqb y x then v else f y.

  (** what a program can do with areas *)
  Inductive op :=
  | FromWay (x : nat) (w : way)
  | FromRelation (x : nat) (r : relation)
  | Copy (x y : nat)
  | Assign (x y : nat)
  | SetGeometry (x : nat) (g : option (list geos))
  | SetTags (x : nat) (ts : tag_list)
  | Destroy (x : nat)
  | View (v x : nat)
  | Look (v : nat)
  | Attributes (x : nat).
  Inductive obs := Done | Thrown (e : exn) | Geometry (g : geos) | Object (a : attrs) (ns : list way_node).

  Definition set_id (a : attrs) (id : Z) : attrs :=
    mkAttrs id (o_version a) (o_changeset a) (o_timestamp a) (o_endtime a) (o_uid a) (o_user a) (o_visible a) (o_tags a).
  Definition set_tags (a : attrs) (ts : tag_list) : attrs :=
    mkAttrs (o_id a) (o_version a) (o_changeset a) (o_timestamp a) (o_endtime a) (o_uid a) (o_user a) (o_visible a) ts.
  (** area.hpp 79-84: Area(const Way&) *)
  Definition area_of_way (w : way) : outcome area :=
    let! id := area_id_of_way (o_id (w_attrs w)) in Ok (mkArea (set_id (w_attrs w) id) (w_nodes w) None).
  (** area.hpp 71-76: Area(const Relation&) *)
  Definition area_of_relation (r : relation) : outcome area :=
    let! id := area_id_of_relation (o_id (r_attrs r)) in Ok (mkArea (set_id (r_attrs r) id) [] None).
  (** area.hpp 89, 103: clone() of the geometry; without one the pointer is null *)
  Definition clone (p : option nat) (h : heap) : outcome (option nat * heap) :=
    match p with
    | None => UB
    | Some a => let! g := deref a h in let (b, h') := alloc g h in Ok (Some b, h')
    end.
  (** area.hpp 92-105: operator=: the attributes one by one *)
  Definition assign_attrs (a b : attrs) : attrs :=
    mkAttrs (o_id b) (o_version b) (o_changeset b) (o_timestamp b) (o_endtime b) (o_uid b) (o_user b) (o_visible b) (o_tags b).
  (** multipolygon.hpp 44-57: the constructor of MultiPolygon: the area and the heap afterwards *)
  Definition multipolygon_new (a : area) (h : heap) : outcome (area * heap) :=
    match a_geom a with
    | Some _ => Ok (a, h)
    | None =>
        let! polygon := polygon_new (a_nodes a) false in
        let! p := geos_polygon polygon in
        let (m, h') := alloc (GMulti [p]) h in
        Ok (mkArea (a_attrs a) (a_nodes a) (Some m), h')
    end.
  (** multipolygon.hpp 91-97: borrow_geos_geometry, and reading what it points to *)
  Definition borrow (a : area) (h : heap) : outcome geos :=
    match a_geom a with None => Throw ENoGeometry | Some m => deref m h end.

  (** an exception leaves everything as it was *)
  Definition or_thrown {A} (w : world) (o : outcome A) (k : A -> outcome (world * obs)) : outcome (world * obs) :=
    match o with Ok x => k x | Throw e => Ok (w, Thrown e) | UB => UB | AssertFail => AssertFail end.
  (** None: no C++ program does this (a name used twice or before or after its time) *)
  Definition step (w : world) (o : op) : option (outcome (world * obs)) :=
    let h := w_heap w in
    match o with
    | FromWay x wy =>
        match w_area w x with
        | Unborn => Some (or_thrown w (area_of_way wy) (fun a => Ok (mkWorld h (put (w_area w) x (Alive a)) (w_view w), Done)))
        | _ => None
        end
    | FromRelation x r =>
        match w_area w x with
        | Unborn => Some (or_thrown w (area_of_relation r) (fun a => Ok (mkWorld h (put (w_area w) x (Alive a)) (w_view w), Done)))
        | _ => None
        end
    | Copy x y => (* area.hpp 86-90 *)
        match w_area w x, w_area w y with
        | Unborn, Alive b => Some (or_thrown w (clone (a_geom b) h) (fun q =>
            Ok (mkWorld (snd q) (put (w_area w) x (Alive (mkArea (a_attrs b) (a_nodes b) (fst q)))) (w_view w), Done)))
        | _, _ => None
        end
    | Assign x y => (* area.hpp 92-105 *)
        match w_area w x, w_area w y with
        | Alive a, Alive b => Some (or_thrown w (clone (a_geom b) h) (fun q =>
            Ok (mkWorld (snd q) (put (w_area w) x (Alive (mkArea (assign_attrs (a_attrs a) (a_attrs b)) (a_nodes b) (fst q)))) (w_view w), Done)))
        | _, _ => None
        end
    | SetGeometry x g => (* area.hpp 125-128; the caller makes the geometry and gives it away *)
        match w_area w x with
        | Alive a =>
            let (p, h') := match g with None => (None, h) | Some ps => let (m, h') := alloc (GMulti ps) h in (Some m, h') end in
            Some (Ok (mkWorld h' (put (w_area w) x (Alive (mkArea (a_attrs a) (a_nodes a) p))) (w_view w), Done))
        | _ => None
        end
    | SetTags x ts => (* object.hpp 261-263 *)
        match w_area w x with
        | Alive a => Some (Ok (mkWorld h (put (w_area w) x (Alive (mkArea (set_tags (a_attrs a) ts) (a_nodes a) (a_geom a)))) (w_view w), Done))
        | _ => None
        end
    | Destroy x => (* area.hpp 107-109 *)
        match w_area w x with
        | Alive a => Some (or_thrown w (release (a_geom a) h) (fun h' => Ok (mkWorld h' (put (w_area w) x Dead) (w_view w), Done)))
        | _ => None
        end
    | View v x =>
        match w_view w v, w_area w x with
        | Unborn, Alive a => Some (or_thrown w (multipolygon_new a h) (fun q =>
            Ok (mkWorld (snd q) (put (w_area w) x (Alive (fst q))) (put (w_view w) v (Alive x)), Done)))
        | _, _ => None
        end
    | Look v =>
        match w_view w v with
        | Alive x => match w_area w x with
                     | Alive a => Some (or_thrown w (borrow a h) (fun g => Ok (w, Geometry g)))
                     | _ => Some UB (* the reference dangles *)
                     end
        | _ => None
        end
    | Attributes x =>
        match w_area w x with Alive a => Some (Ok (w, Object (a_attrs a) (a_nodes a))) | _ => None end
    end.
  (** a program up to its end or to the first undefined behaviour; None: not a program *)
  Fixpoint run (w : world) (ops : list op) : option (outcome (world * list obs)) :=
    match ops with
    | [] => Some (Ok (w, []))
    | o :: r =>
        match step w o with
        | None => None
        | Some (Ok (w', b)) =>
            match run w' r with
            | None => None
            | Some q => Some (let! z := q in Ok (fst z, b :: snd z))
            end
        | Some (Throw e) => Some (Throw e)
        | Some UB => Some UB
        | Some AssertFail => Some AssertFail
        end
    end.
  Definition world_new : world := mkWorld (mkHeap 0 (fun _ => None)) (fun _ => Unborn) (fun _ => Unborn).
End Geos.
Arguments Unborn {A}.
Arguments Alive {A} a.
Arguments Dead {A}.

(* ---- OGR ---- *)
Inductive ogr := OgrPoint (p : point) | OgrLine (ps : list point) | OgrPolygon (rings : list (list point)) | OgrMulti (polygons : list (list (list point))).
(** ogr.hpp 45-47: create_ogr_geometry of a point *)
Definition ogr_point (p : position) : ogr := OgrPoint (pos_lon p, pos_lat p).
(** ogr.hpp 54-66: of a line string *)
Definition ogr_line (g : from_way) : ogr := OgrLine (collect g).
(** ogr.hpp 73-87: of a polygon *)
Definition ogr_polygon (g : from_way) : ogr := OgrPolygon ([] ++ [collect g]).
(** OGRLineString::setPoint of a ring with enough points *)
Fixpoint set_point (l : list point) (i : nat) (p : point) : list point :=
  match l, i with
  | [], _ => []
  | _ :: r, O => p :: r
  | x :: r, S k => x :: set_point r k p
  end.
(** ogr_multipolygon.hpp 43-54: add_ring; [origin]: the points of setNumPoints *)
Fixpoint set_points (i : nat) (cs : list point) (l : list point) : list point :=
  match cs with [] => l | c :: r => set_points (S i) r (set_point l i c) end.
Definition origin : point := (d_of_Z 0, d_of_Z 0).
Definition add_ring (polygon : list (list point)) (cs : list point) : list (list point) :=
  polygon ++ [set_points 0 cs (repeat origin (List.length cs))].
(** ogr_multipolygon.hpp 56-65: make_polygon; the cast of another geometry to a polygon is a null pointer *)
Definition make_polygon (g : geos) : outcome (list (list point)) :=
  match g with
  | GPolygon ext holes => Ok (fold_left add_ring holes (add_ring [] ext))
  | _ => UB
  end.
(** ogr_multipolygon.hpp 74-91: create_ogr_geometry of a multipolygon; [accept]: addGeometryDirectly returns OGRERR_NONE *)
Fixpoint ogr_polygons (accept : list (list point) -> bool) (gs : list geos) (acc : list (list (list point))) : outcome ogr :=
  match gs with
  | [] => Ok (OgrMulti acc)
  | g :: r =>
      let! p := make_polygon g in
      if accept p then ogr_polygons accept r (acc ++ [p]) else Throw EIllegalGeometry
  end.
(** ogr_multipolygon.hpp 77: the geometry of the multipolygon; the cast of something else to a collection is a null pointer *)
Definition ogr_multipolygon (accept : list (list point) -> bool) (g : geos) : outcome ogr :=
  match g with GMulti l => ogr_polygons accept l [] | _ => UB end.
