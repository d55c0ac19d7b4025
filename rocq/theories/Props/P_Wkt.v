(** C59: geometries as WKT text. *)
From Verif Require Import Base.Prelude Model.Osm Model.Float Model.Geom Model.Wkt
  Spec.FloatSpec Spec.DecimalSpec Spec.WktSpec Proofs.WktProofs.

Definition wp (x y : Z) : position := mkPos x y.
Definition wn (x y : Z) : way_node := mkWN 1 (wp x y).
Definition wline : list way_node := [wn 1 (-15); wn 1234567890 (-2147483648); wn (-5000000) 2147483647].

(** The decimal number written for a stored coordinate is that coordinate, without rounding. *)
Theorem C59_number : forall x, in_i32 x -> coordinate_exact (stream_double (fix_to_double x)) x.
Proof. exact wkt_number. Qed.
Print Assumptions C59_number.
(** Points, line strings and polygons are the texts of all their coordinates in order. *)
Theorem C59_exact :
  (forall s p, stored_position p -> exists a b, point_text s p = (wkt_srid s ++ "POINT(" ++ a ++ " " ++ b ++ ")")%string /\
     coordinate_exact a (px p) /\ coordinate_exact b (py p)) /\
  (forall s g, Forall stored_position (positions (line_order g)) -> exists t, line_text s g = (wkt_srid s ++ "LINESTRING(" ++ t ++ ")")%string /\
     coords_text t (positions (line_order g))) /\
  (forall s g, Forall stored_position (positions (fw_nodes g)) -> exists t, poly_text s g = (wkt_srid s ++ "POLYGON((" ++ t ++ "))")%string /\
     coords_text t (positions (fw_nodes g))).
Proof. exact wkt_exact. Qed.
Print Assumptions C59_exact.
(** A WKT reader gets the same positions in the same order. *)
Theorem C59_read :
  (forall s p, stored_position p -> read_wkt (point_text s p) = Some (s, WPoint p)) /\
  (forall s g, Forall stored_position (positions (line_order g)) -> read_wkt (line_text s g) = Some (s, WLine (positions (line_order g)))) /\
  (forall s g, Forall stored_position (positions (fw_nodes g)) -> read_wkt (poly_text s g) = Some (s, WPolygon (positions (fw_nodes g)))).
Proof. exact wkt_read. Qed.
Print Assumptions C59_read.
(** Two line strings with the same text have the same positions. *)
Theorem C59_injective : forall s s' g g',
  Forall stored_position (positions (line_order g)) -> Forall stored_position (positions (line_order g')) ->
  line_text s g = line_text s' g' -> s = s' /\ positions (line_order g) = positions (line_order g').
Proof. exact wkt_injective. Qed.
Print Assumptions C59_injective.
Example C59_example : Forall stored_position (positions (line_order (linestring_new wline true))) /\
  line_text true (linestring_new wline true) =
    "SRID=4326;LINESTRING(-0.5 214.7483647,123.456789 -214.7483648,1e-07 -1.5e-06)"%string /\
  point_text false (wp 1800000000 (-900000000)) = "POINT(180 -90)"%string.
Proof. split; [|split]; [|vm_compute; reflexivity|vm_compute; reflexivity]. repeat constructor; cbn; unfold in_i32, int32_min, int32_max; lia. Qed.
(** Finding: an undefined position is written like any other. *)
Theorem C59_undefined_refuted : exists p, pos_defined p = false /\
  point_text false p = "POINT(214.7483647 214.7483647)"%string /\ read_wkt (point_text false p) = Some (false, WPoint p).
Proof. exists undef_pos. split; [reflexivity|]. split; vm_compute; reflexivity. Qed.
Print Assumptions C59_undefined_refuted.
