(** Areas and geometries for other libraries (C63, C64).  Statements only, the proofs are in Proofs. *)
From Verif Require Import Base.Prelude Model.Osm Model.Float Model.Geom Model.Area Spec.GeomSpec Spec.AreaSpec Proofs.AreaProofs.

(* ================ C63: areas ================ *)
(** For each program with areas the observations are those of plain values: an area owns its geometry, a copy has
    its own, no geometry is freed twice or used after its area. *)
Theorem C63_values : forall valid ops, shown (run valid world_new ops) = vrun valid vworld_new ops.
Proof. exact values_thm. Qed.
Print Assumptions C63_values.

(** At each moment the geometry of an area exists and belongs to no other area. *)
Theorem C63_ownership : forall valid ops w l, run valid world_new ops = Some (Ok (w, l)) ->
  (forall x a p, w_area w x = Alive a -> a_geom a = Some p -> exists g, h_cell (w_heap w) p = Some g) /\
  (forall x y a b p, w_area w x = Alive a -> w_area w y = Alive b -> a_geom a = Some p -> a_geom b = Some p -> x = y).
Proof. exact ownership_thm. Qed.
Print Assumptions C63_ownership.

(** Once all areas are destroyed no geometry is left, if no area got a geometry when it had one. *)
Theorem C63_no_leak : forall valid ops w l, run valid world_new ops = Some (Ok (w, l)) -> any_replaces valid vworld_new ops = false ->
  (forall x a, w_area w x <> Alive a) -> forall p, h_cell (w_heap w) p = None.
Proof. exact no_leak_thm. Qed.
Print Assumptions C63_no_leak.

Definition ex_attrs (i : Z) : attrs := mkAttrs i 3 7 100 0 5 "u" true [].
Definition ex_ring (p q r : position) : list way_node := [mkWN 1 p; mkWN 2 q; mkWN 3 r; mkWN 1 p].
Definition ex_way (p q r : position) : way := mkWay (ex_attrs 12) (ex_ring p q r).
Definition long (l : list coord) : bool := (4 <=? List.length l)%nat.
Definition ex_tag : tag := mkTag "k" "v".
Definition ex_ops (p q r : position) : list op :=
  [FromWay 0 (ex_way p q r); View 0 0; Copy 1 0; SetTags 0 [ex_tag]; Destroy 0; View 1 1; Look 1; Attributes 1; Destroy 1].
Example C63_example : forall p q r,
  shown (run long world_new (ex_ops p q r))
    = Some (Ok [Done; Done; Done; Done; Done; Done; Geometry (GMulti [GPolygon [coord_of p; coord_of q; coord_of r; coord_of p] []]);
                Object (mkAttrs 24 3 7 100 0 5 "u" true []) (ex_ring p q r); Done]).
Proof. intros. reflexivity. Qed.
Example C63_example_no_leak : forall p q r, any_replaces long vworld_new (ex_ops p q r) = false.
Proof. intros. reflexivity. Qed.

(** Finding: copying an area without a geometry, such as one just made from a way, follows a null pointer. *)
Theorem C63_copy_refuted : exists ops, forall valid, run valid world_new ops = Some UB.
Proof. exists [FromWay 0 (ex_way undef_pos undef_pos undef_pos); Copy 1 0]. intros. reflexivity. Qed.
Print Assumptions C63_copy_refuted.
(** Finding: so does looking at the multipolygon of a relation area before it has a geometry. *)
Theorem C63_relation_refuted : exists r, forall valid, run valid world_new [FromRelation 0 r; View 0 0] = Some UB.
Proof. exists (mkRelation (ex_attrs 12) []). intros. reflexivity. Qed.
Print Assumptions C63_relation_refuted.
(** Finding: an assignment, or giving a second geometry, loses the old geometry. *)
Theorem C63_leak_refuted : exists valid ops w l p, run valid world_new ops = Some (Ok (w, l)) /\
  (forall x, w_area w x = Unborn \/ w_area w x = Dead) /\ h_cell (w_heap w) p <> None.
Proof.
  exists long, [FromWay 0 (mkWay (ex_attrs 12) []); FromWay 1 (mkWay (ex_attrs 13) []); SetGeometry 0 (Some []); SetGeometry 1 (Some []); Assign 0 1; Destroy 0; Destroy 1].
  eexists _, _, 0%nat. split; [vm_compute; reflexivity|]. split.
  - intros [|[|x]]; cbn; auto.
  - discriminate.
Qed.
Print Assumptions C63_leak_refuted.

(* ================ C64: geometries for GEOS and OGR ================ *)
(** Lines and polygons have the points of the nodes in order, the last first if reversed. *)
Theorem C64_geos_line : forall valid g, geos_line valid g = if valid (points_of g) then Ok (GLine (points_of g)) else Throw EGeos.
Proof. exact geos_line_thm. Qed.
Print Assumptions C64_geos_line.
Theorem C64_geos_polygon : forall valid g, geos_polygon valid g = if valid (points_of g) then Ok (GPolygon (points_of g) []) else Throw EGeos.
Proof. exact geos_polygon_thm. Qed.
Print Assumptions C64_geos_polygon.
Theorem C64_ogr : forall g, ogr_line g = OgrLine (points_of g) /\ ogr_polygon g = OgrPolygon [points_of g].
Proof. exact ogr_line_thm. Qed.
Print Assumptions C64_ogr.
(** An OGR multipolygon has the polygons of the GEOS multipolygon, each with its outer ring first. *)
Theorem C64_ogr_multipolygon : forall accept gs, Forall is_polygon gs ->
  ogr_multipolygon accept (GMulti gs) =
    if forallb (fun g => accept (rings_of g)) gs then Ok (OgrMulti (map rings_of gs)) else Throw EIllegalGeometry.
Proof. exact ogr_multipolygon_thm. Qed.
Print Assumptions C64_ogr_multipolygon.
Example C64_example : forall a b c d : coord,
  Forall is_polygon [GPolygon [a; b; c; a] [[d; b; d]; [c; c]]; GPolygon [b; b] []] /\
  ogr_multipolygon (fun _ => true) (GMulti [GPolygon [a; b; c; a] [[d; b; d]; [c; c]]; GPolygon [b; b] []])
    = Ok (OgrMulti [[[a; b; c; a]; [d; b; d]; [c; c]]; [[b; b]]]).
Proof. intros. split; [|reflexivity]. repeat constructor; eexists _, _; reflexivity. Qed.
Example C64_line_example : forall p q, geos_line (fun l => (2 <=? List.length l)%nat) (mkFW [mkWN 1 p; mkWN 2 q] true)
  = Ok (GLine [coord_of q; coord_of p]).
Proof. intros. reflexivity. Qed.
