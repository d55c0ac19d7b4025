(** The example program that writes shapefiles: examples/osmium_toshape.cpp, on top of
    Model/Handler.v (CoordinatesForWays), Model/Geom.v (the geometries) and Model/Shapefile.v.
    Shapelib is outside the model: [lib] says whether its n-th call (DBFAddField, SHPWriteObject,
    DBFWrite...Attribute) succeeds, [opens...] whether a file can be created.  What it stores is kept
    as a list of rows.  Texts hold no zero bytes.  Messages are left out. *)
From Verif Require Import Base.Prelude Model.Osm Model.Float Model.Geom Model.Shapefile Model.Handler.

(** a record of the shapefile: the points of the shape, and the fields 0 and 1 of the dbf file if
    they were written *)
Record row := mkRow { row_points : list (double * double); row_id : option double; row_text : option (list Z) }.
(** a Shapefile object (export/shapefile.hpp) and the rows in its files; the shape number k of the
    files has the tag k *)
Record layer := mkLayer { ly_shp : sstate; ly_rows : list row }.

(** the bytes of a std::string *)
Definition text_bytes (s : string) : list Z := map (fun c => Z.of_N (N_of_ascii c)) (list_ascii_of_string s).

(** osmium_toshape.cpp 27-32: the members *)
Record tstate (P N : Type) := mkT { t_stores : P * N; t_points : layer; t_lines : layer; t_calls : nat }.
Arguments mkT {P N}. Arguments t_stores {P N}. Arguments t_points {P N}. Arguments t_lines {P N}. Arguments t_calls {P N}.

Section Layer.
  Variable lib : nat -> bool.
  Variable opens : Z -> bool.
  (** a call that writes into a layer: the layer, the number of library calls, and how it ended *)
  Definition lact (A : Type) : Type := layer -> nat -> layer * nat * outcome A.
  Definition lbind {A B} (m : lact A) (f : A -> lact B) : lact B := fun ly k =>
    match m ly k with
    | (ly', k', Ok a) => f a ly' k'
    | (ly', k', Throw e) => (ly', k', Throw e)
    | (ly', k', UB) => (ly', k', UB)
    | (ly', k', AssertFail) => (ly', k', AssertFail)
    end.
  (** osmium_toshape.cpp 38-40, 41-43: a new shapefile with its two fields *)
  Definition layer_new (type : shptype) (name : string) (k : nat) : outcome layer :=
    let! s0 := shapefile_new opens type in
    let (s1, r1) := add_field_type s0 "id" FTDouble 12 0 (lib k) in
    let! _ := r1 in
    let (s2, r2) := add_field_type s1 name FTString 30 0 (lib (S k)) in
    let! _ := r2 in
    Ok (mkLayer s2 []).
  (** shapefile.hpp 198-218: add_geometry with an object made by SHPCreateSimpleObject (shplib.hpp
      51-55, 100): a point has no parts, a line one *)
  Definition add_shape (type : shptype) (parts : Z) (ps : list (double * double)) : lact unit := fun ly k =>
    let o := mkShp type parts (Z.of_nat (List.length ps)) (Z.of_nat (List.length (ly_rows ly))) in
    let (s, r) := add_geometry opens (ly_shp ly) (Some o) (lib k) in
    (mkLayer s (match r with Ok _ => ly_rows ly ++ [mkRow ps None None] | _ => ly_rows ly end), S k, r).
  (** a change of the row of m_current_shape, the last one *)
  Definition change_last (f : row -> row) (rs : list row) : list row :=
    match rev rs with [] => [] | r :: l => rev (f r :: l) end.
  (** shapefile.hpp 234-239, 241-253: add_attribute of a double to field 0, of a text to field 1 *)
  Definition add_double (d : double) : lact unit := fun ly k =>
    if lib k then (mkLayer (ly_shp ly) (change_last (fun r => mkRow (row_points r) (Some d) (row_text r)) (ly_rows ly)), S k, Ok tt)
    else (ly, S k, Throw ERuntime).
  Definition add_text (t : list Z) : lact unit := fun ly k =>
    if lib k then (mkLayer (ly_shp ly) (change_last (fun r => mkRow (row_points r) (row_id r) (Some t)) (ly_rows ly)), S k, Ok tt)
    else (ly, S k, Throw ERuntime).
  (** shapefile.hpp 263-283: add_attribute_with_truncate to field 1 *)
  Definition add_truncated (v : string) : lact unit := fun ly k =>
    match nth_error (ss_fields (ly_shp ly)) 1 with
    | None => (ly, k, UB)
    | Some f =>
        match truncate (f_width f) (text_bytes v) with
        | Ok t => add_text t ly k
        | Throw e => (ly, k, Throw e)
        | UB => (ly, k, UB)
        | AssertFail => (ly, k, AssertFail)
        end
    end.
  (** the common part of lines 61-66 and 83-85 *)
  Definition add_row (type : shptype) (parts : Z) (ps : list (double * double)) (id : Z) (text : option string) : lact unit :=
    lbind (add_shape type parts ps) (fun _ =>
    lbind (add_double (d_of_Z id)) (fun _ =>
    match text with Some v => add_truncated v | None => fun ly k => (ly, k, Ok tt) end)).
End Layer.

(** osmium_toshape.cpp 59-69, 81-88: how a callback with this result ends; IllegalGeometry is caught *)
Definition caught {A} (r : outcome A) : option halt :=
  match r with
  | Ok _ => None
  | Throw (EOther n) => if n =? 11 then None else Some (HExn (EOther n))
  | Throw e => Some (HExn e)
  | UB | AssertFail => Some HUB
  end.

Section Toshape.
  Context {P N : Type}.
  Variable pset : Z -> position -> P -> outcome P.
  Variable pget : Z -> P -> outcome position.
  Variable nset : Z -> position -> N -> outcome N.
  Variable nget : Z -> N -> outcome position.
  Variable lib : nat -> bool.
  Variables opens_points opens_lines : Z -> bool.

  (** osmium_toshape.cpp 36-44: the constructor *)
  Definition toshape_new (p0 : P) (n0 : N) : outcome (tstate P N) :=
    let! a := layer_new lib opens_points SHPT_POINT "operator" 0 in
    let! b := layer_new lib opens_lines SHPT_ARC "type" 2 in
    Ok (mkT (p0, n0) a b 4).

  (** osmium_toshape.cpp 57-70: the part of node() after CoordinatesForWays *)
  Definition export_node (n : node) (s : tstate P N) : tstate P N * option halt :=
    match get_value_by_key (o_tags (n_attrs n)) "amenity" with
    | Some v =>
        if String.eqb v "post_box" then
          let p := n_pos n in
          let '(ly, k, r) := add_row lib opens_points SHPT_POINT 0 [(pos_lon p, pos_lat p)] (o_id (n_attrs n))
                               (get_value_by_key (o_tags (n_attrs n)) "operator") (t_points s) (t_calls s) in
          (mkT (t_stores s) ly (t_lines s) k, caught r)
        else (s, None)
    | None => (s, None)
    end.
  (** osmium_toshape.cpp 79-89: the part of way() after CoordinatesForWays *)
  Definition export_way (w : way) (s : tstate P N) : tstate P N * option halt :=
    match get_value_by_key (o_tags (w_attrs w)) "highway" with
    | Some v =>
        match line_or_polygon (linestring_new (w_nodes w) false) with
        | Ok (lon, lat) =>
            let '(ly, k, r) := add_row lib opens_lines SHPT_ARC 1 (combine lon lat) (o_id (w_attrs w)) (Some v) (t_lines s) (t_calls s) in
            (mkT (t_stores s) (t_points s) ly k, caught r)
        | r => (s, caught r)
        end
    | None => (s, None)
    end.
  (** osmium_toshape.cpp 51-90: the handler; init() and after_nodes() of CoordinatesForWays do nothing
      (coordinates_for_ways.hpp) *)
  Definition toshape (c : callback) (s : tstate P N) : tstate P N * option halt :=
    match c with
    | CObj o =>
        match cfw_step pset pget nset nget o (t_stores s) with
        | Ok (o', st) =>
            let s1 := mkT st (t_points s) (t_lines s) (t_calls s) in
            match o' with
            | ONode n => export_node n s1
            | OWay w => export_way w s1
            | ORel _ => (s1, None)
            end
        | Throw e => (s, Some (HExn e))
        | UB | AssertFail => (s, Some HUB)
        end
    | _ => (s, None)
    end.
End Toshape.
