(** C48-C52: geometries, their output formats, shapefiles. *)
From Verif Require Import Base.Prelude Model.Osm Model.Float Model.Geom Model.Shapefile
  Spec.GeomSpec Spec.ShapefileSpec Proofs.GeomProofs Proofs.ShapefileProofs Proofs.Shapefile2Proofs Proofs.FailProofs.

(* ---- data for the examples ---- *)
Definition gp (x y : Z) : position := mkPos x y.
Definition gn (r x y : Z) : way_node := mkWN r (gp x y).
Definition gline : list way_node := [gn 1 10000000 20000000; gn 2 10000000 20000000; gn 3 (-15000000) 5; gn 1 10000000 20000000].

(* ---- C48 ---- *)
(** An EWKB reader gets the coordinates back, bit by bit. *)
Theorem C48_point : forall s p, read_ewkb (point_wkb s p) = Some (srid_of s, SPoint (coord_of p)).
Proof. exact point_ok. Qed.
Print Assumptions C48_point.
Theorem C48_linestring : forall s g, nnodes g < 4294967296 ->
  read_ewkb (line_wkb s g) = Some (srid_of s, SLine (map coord_of (positions (line_order g)))).
Proof. exact line_ok. Qed.
Print Assumptions C48_linestring.
Theorem C48_polygon : forall s g, nnodes g < 4294967296 ->
  read_ewkb (poly_wkb s g) = Some (srid_of s, SPoly [map coord_of (positions (fw_nodes g))]).
Proof. exact poly_ok. Qed.
Print Assumptions C48_polygon.
(** The hexadecimal text is the binary form. *)
Theorem C48_hex : (forall s p, unhex (point_hex s p) = Some (point_wkb s p)) /\
  (forall s g, unhex (line_hex s g) = Some (line_wkb s g)) /\
  (forall s g, unhex (poly_hex s g) = Some (poly_wkb s g)).
Proof. exact (conj point_hex_ok (conj line_hex_ok poly_hex_ok)). Qed.
Print Assumptions C48_hex.
Example C48_example : nnodes (linestring_new gline true) < 4294967296 /\
  point_hex true (gp 10000000 20000000) = "0101000020E6100000000000000000F03F0000000000000040"%string /\
  List.length (line_wkb false (linestring_new gline true)) = 73%nat.
Proof. split; [|split]; vm_compute; reflexivity. Qed.

(* ---- C49 ---- *)
(** A reversed linestring is the linestring of the reversed list, in all formats. *)
Theorem C49_linestring : forall ns,
  (forall s, line_wkb s (linestring_new ns true) = line_wkb s (linestring_new (rev ns) false)) /\
  (forall s, line_hex s (linestring_new ns true) = line_hex s (linestring_new (rev ns) false)) /\
  (forall fmt s, line_wkt fmt s (linestring_new ns true) = line_wkt fmt s (linestring_new (rev ns) false)).
Proof. exact line_reverse_thm. Qed.
Print Assumptions C49_linestring.
(** Polygons need a closed ring. *)
Theorem C49_closed : forall ns reverse, ns <> [] ->
  polygon_new ns reverse = if wn_ref (hd (mkWN 0 undef_pos) ns) =? wn_ref (last ns (mkWN 0 undef_pos)) then Ok (mkFW ns reverse) else Throw ERingNotClosed.
Proof. exact polygon_new_iff. Qed.
Print Assumptions C49_closed.
(** Shapes of lines and polygons are reversed (for both the vectors are the same). *)
Theorem C49_shape : forall ns lon lat,
  line_or_polygon (mkFW ns false) = Ok (lon, lat) -> line_or_polygon (mkFW ns true) = Ok (rev lon, rev lat).
Proof. exact shape_reverse. Qed.
Print Assumptions C49_shape.
Example C49_example : polygon_new gline true = Ok (mkFW gline true) /\
  exists lon lat, line_or_polygon (mkFW gline false) = Ok (lon, lat) /\ List.length lon = 3%nat.
Proof.
  split; [reflexivity|]. set (ps := [gp 10000000 20000000; gp (-15000000) 5; gp 10000000 20000000]).
  exists (map pos_lon ps), (map pos_lat ps). split; reflexivity.
Qed.
(** Finding: polygons are never reversed in WKB, hex and WKT. *)
Theorem C49_polygon_refuted : exists ns g, polygon_new ns true = Ok g /\ positions ns <> rev (positions ns) /\
  (forall s, read_ewkb (poly_wkb s g) = Some (srid_of s, SPoly [map coord_of (positions ns)])) /\
  (forall s, poly_hex s g = poly_hex s (mkFW ns false)) /\ (forall fmt s, poly_wkt fmt s g = poly_wkt fmt s (mkFW ns false)).
Proof.
  exists [gn 1 1 1; gn 2 2 2; gn 3 3 3; gn 1 1 1]. eexists. split; [reflexivity|]. split; [discriminate|].
  split; [intros s; now apply poly_ok|]. split; reflexivity.
Qed.
Print Assumptions C49_polygon_refuted.
(** Finding: an empty list is not rejected but undefined behaviour. *)
Theorem C49_empty_refuted : exists r, polygon_new [] r = UB.
Proof. exists false. reflexivity. Qed.
Print Assumptions C49_empty_refuted.

(* ---- C50 ---- *)
Theorem C50_line : forall g, consistent (fw_nodes g) -> wnl_has_position (fw_nodes g) = true ->
  let ps := squeeze (positions (fw_nodes g)) in
  line_or_polygon g =
    if (List.length ps <? 2)%nat then Throw EIllegalGeometry
    else let ps' := if fw_reverse g then rev ps else ps in Ok (map pos_lon ps', map pos_lat ps').
Proof. exact shp_thm. Qed.
Print Assumptions C50_line.
(** What the list is: without repetitions, and repeating its points gives the list of all nodes. *)
Theorem C50_squeeze : forall ps, no_repeat (squeeze ps) /\ stretched (squeeze ps) ps.
Proof. exact squeeze_facts. Qed.
Print Assumptions C50_squeeze.
(** The parts of the shape of a multipolygon are its rings. *)
Theorem C50_parts : forall g, geos_known g -> List.concat (geos_rings g) <> [] ->
  exists d, multipolygon_shp g = Ok d /\ cut (d_parts d) (combine (d_x d) (d_y d)) = geos_rings g /\
    List.length (d_x d) = List.length (d_y d).
Proof. exact parts_thm. Qed.
Print Assumptions C50_parts.
(** If it holds a geometry of another kind, anywhere, there is no shape but an exception. *)
Theorem C50_unknown : forall g, ~ geos_known g -> multipolygon_shp g = Throw ERuntime.
Proof. exact unknown_thm. Qed.
Print Assumptions C50_unknown.
Example C50_unknown_example : let g := GMulti [GMulti [GLine (map coord_of [gp 1 1; gp 2 2])]; GMulti [GOther]; GLine []] in ~ geos_known g.
Proof. cbn. tauto. Qed.
Example C50_example : consistent gline /\ wnl_has_position gline = true /\ squeeze (positions gline) = [gp 10000000 20000000; gp (-15000000) 5; gp 10000000 20000000].
Proof.
  split; [|split; reflexivity]. intros a b Ha Hb. cbn in Ha, Hb. decompose [or] Ha; decompose [or] Hb; subst; cbn; intros E; try reflexivity; try discriminate; contradiction.
Qed.
Example C50_parts_example : let r := map coord_of [gp 1 1; gp 2 2; gp 3 1; gp 1 1] in
  let g := GMulti [GPolygon r [r; r]; GPolygon r []] in geos_known g /\ option_map d_parts (match multipolygon_shp g with Ok d => Some d | _ => None end) = Some [0; 4; 8; 12].
Proof. cbn zeta. split; [repeat split|vm_compute; reflexivity]. Qed.
(** Finding: with different positions for nodes of the same ref a point is lost. *)
Theorem C50_same_ref_refuted : exists ns lon lat, wnl_has_position ns = true /\ line_or_polygon (mkFW ns false) = Ok (lon, lat) /\
  squeeze (positions ns) = positions ns /\ List.length ns = 3%nat /\ List.length lon = 2%nat.
Proof.
  exists [gn 1 1 1; gn 1 2 2; gn 3 3 3], (map pos_lon [gp 1 1; gp 3 3]), (map pos_lat [gp 1 1; gp 3 3]).
  split; [reflexivity|]. split; [reflexivity|]. split; [reflexivity|]. split; reflexivity.
Qed.
Print Assumptions C50_same_ref_refuted.

(* ---- C51 ---- *)
(** [fitting] are the whole characters that fit *)
Theorem C51_truncate : forall w cs, 3 <= w <= 255 -> Forall utf8_char cs ->
  truncate w (List.concat cs) = Ok (List.concat (fitting (Z.to_nat w) cs)).
Proof. exact truncate_thm. Qed.
Print Assumptions C51_truncate.
Theorem C51_width_1 : forall cs, Forall utf8_char cs -> truncate 1 (List.concat cs) = Ok (List.concat (fitting 1 cs)).
Proof. exact truncate_1. Qed.
Print Assumptions C51_width_1.
(** Finding: in a field of width 2 a string starting with a two byte character makes the code read
    before the buffer; other strings are cut well. *)
Theorem C51_width_2 : forall cs, Forall utf8_char cs ->
  truncate 2 (List.concat cs) =
    if match cs with c :: _ => (List.length c =? 2)%nat | [] => false end then UB else Ok (List.concat (fitting 2 cs)).
Proof. exact truncate_2. Qed.
Print Assumptions C51_width_2.
Theorem C51_fitting : forall n cs, (List.length (List.concat (fitting n cs)) <= n)%nat /\
  exists rest, cs = fitting n cs ++ rest /\ forall c r, rest = c :: r -> (n < List.length (List.concat (fitting n cs)) + List.length c)%nat.
Proof. exact fitting_facts. Qed.
Print Assumptions C51_fitting.
Definition sample_chars : list (list Z) := [[65]; [195; 164]; [226; 130; 172]; [240; 159; 152; 128]; [66]].
Example C51_example : Forall utf8_char sample_chars /\
  map (fun w => truncate w (List.concat sample_chars)) [3; 5; 6; 9; 10; 12] =
  [Ok [65; 195; 164]; Ok [65; 195; 164]; Ok [65; 195; 164; 226; 130; 172]; Ok [65; 195; 164; 226; 130; 172];
   Ok [65; 195; 164; 226; 130; 172; 240; 159; 152; 128]; Ok (List.concat sample_chars)].
Proof. split; [repeat constructor; unfold cont_byte; lia|vm_compute; reflexivity]. Qed.
Theorem C51_narrow_refuted : exists w cs, 0 <= w <= 255 /\ Forall utf8_char cs /\ truncate w (List.concat cs) = UB.
Proof. exists 2, [[195; 164]]. split; [lia|]. split; [repeat constructor; unfold cont_byte; lia|reflexivity]. Qed.
Print Assumptions C51_narrow_refuted.
Theorem C51_zero_refuted : exists n s, 0 <= n /\ truncate n s = UB.
Proof. exists 0, [65]. split; [lia|reflexivity]. Qed.
Print Assumptions C51_zero_refuted.

(* ---- C52 ---- *)
(** The computed length is the size of the record in the ESRI specification. *)
Theorem C52_length : forall s, sizes_ok s -> length_on_disk s = match esri_record s with Some n => Ok n | None => Throw ERuntime end.
Proof. exact length_thm. Qed.
Print Assumptions C52_length.
(** Fields first, then shapes that fit into a file: all shapes of successful calls are in the files
    in order, no file is too big, all files have the same fields, the files are numbered. *)
Theorem C52_files : forall opens, (forall k, opens k = true) -> forall type fields shapes,
  Forall is_field fields -> Forall small_shape shapes ->
  exists s0 s os, shapefile_new opens type = Ok s0 /\ srun opens s0 (fields ++ shapes) = (s, os) /\
    let files := all_files s in
    flat_map sf_shapes files = written shapes (skipn (List.length fields) os) /\
    (forall f, In f files -> shp_size f <= 2147483647 /\ dbf_size f <= 2147483647 /\ sf_fields f = ss_fields s) /\
    map sf_seq files = map (fun k => to_u32 (Z.of_nat k)) (seq 0 (List.length files)) /\
    Forall (fun r => r = Ok tt \/ exists e, r = Throw e) os.
Proof. exact files_thm. Qed.
Print Assumptions C52_files.
(** If the first files cannot be created there is no shapefile but an exception. *)
Theorem C52_first : forall opens type, opens 0 = false -> shapefile_new opens type = Throw ERuntime.
Proof. exact first_open. Qed.
Print Assumptions C52_first.
Example C52_first_example : shapefile_new (fun k => negb (k =? 0)) SHPT_ARC = Throw ERuntime.
Proof. reflexivity. Qed.
Definition big (n : Z) (t : nat) : shp := mkShp SHPT_ARC 1 n (Z.of_nat t).
Definition all_open : Z -> bool := fun _ => true.
Definition run_files (opens : Z -> bool) (xs : list sop) : option (list (Z * nat) * list (outcome unit)) :=
  match shapefile_new opens SHPT_ARC with
  | Ok s0 => let (s, os) := srun opens s0 xs in Some (map (fun f => (sf_seq f, List.length (sf_shapes f))) (all_files s), os)
  | _ => None
  end.
Example C52_example :
  let fields := [OField "name" "string" 200 0 true] in let shapes := map (fun k => OShape (Some (big 60000000 k)) true) [0; 1; 2; 3; 4]%nat in
  Forall is_field fields /\ Forall small_shape shapes /\
  run_files all_open (fields ++ shapes) = Some ([(0, 2%nat); (1, 2%nat); (2, 1%nat)], [Ok tt; Ok tt; Ok tt; Ok tt; Ok tt; Ok tt]).
Proof.
  cbn zeta. split; [repeat constructor; cbn; lia|]. split; [|vm_compute; reflexivity].
  apply Forall_forall. intros x Hx. apply in_map_iff in Hx as (k & <- & _).
  split; [repeat split|]; vm_compute; intros H; discriminate H.
Qed.
(** Finding: one shape that is too big is written nevertheless. *)
Theorem C52_big_shape_refuted : exists o s0 s f, sizes_ok o /\ shapefile_new all_open SHPT_ARC = Ok s0 /\
  srun all_open s0 [OShape (Some o) true] = (s, [Ok tt]) /\ In f (all_files s) /\ shp_size f > 2147483647.
Proof.
  exists (big 200000000 0). eexists _, _, _. split; [repeat split; vm_compute; intros H; discriminate H|]. split; [reflexivity|].
  split; [vm_compute; reflexivity|]. split; [right; left; reflexivity|]. vm_compute. reflexivity.
Qed.
Print Assumptions C52_big_shape_refuted.
(** Finding: with more vertices the size computation overflows. *)
Theorem C52_overflow_refuted : exists o, 0 <= s_vertices o <= int32_max /\ length_on_disk o = UB.
Proof. exists (big 1073741824 0). split; [vm_compute; split; intros H; discriminate H|]. vm_compute. reflexivity. Qed.
Print Assumptions C52_overflow_refuted.
(** Finding: if opening the next file fails, the next call uses a null handle. *)
Theorem C52_failed_open_refuted : exists opens s0 s, shapefile_new opens SHPT_ARC = Ok s0 /\
  srun opens s0 (map (fun k => OShape (Some (big 100000000 k)) true) [0; 1; 2]%nat) = (s, [Ok tt; Throw ERuntime; UB]).
Proof. exists (fun k => k =? 0). eexists _, _. split; [reflexivity|]. vm_compute. reflexivity. Qed.
Print Assumptions C52_failed_open_refuted.
(** Finding: fields added after shapes are not counted for the records already written. *)
Theorem C52_late_fields_refuted : exists xs s0 s, Forall (fun x => is_field x \/ small_shape x) xs /\
  shapefile_new all_open SHPT_ARC = Ok s0 /\ fst (srun all_open s0 xs) = s /\ Forall (fun r => r = Ok tt) (snd (srun all_open s0 xs)) /\
  exists f, In f (all_files s) /\ dbf_size f > 2147483647.
Proof. exact late_fields. Qed.
Print Assumptions C52_late_fields_refuted.
