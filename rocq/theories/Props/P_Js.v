(** C61, C62: what Javascript programs see and write. *)
From Coq Require Import Reals.
From Flocq Require Import IEEE754.Binary.
From Verif Require Import Base.Prelude Model.Osm Model.Float Model.Geom Model.Wkt Model.Shapefile Model.Unicode Model.Js
  Spec.TimeSpec Spec.FloatSpec Spec.UnicodeSpec Spec.GeomSpec Spec.WktSpec Spec.JsSpec Proofs.UnicodeProofs Proofs.JsProofs Proofs.JsOutProofs.
Local Open Scope Z_scope.

Definition jn (r x y : Z) : way_node := mkWN r (mkPos x y).
Definition jring : list way_node := [jn 1 10000000 20000000; jn 2 30000000 20000000; jn 3 (-15000000) 5; jn 1 10000000 20000000].
Definition jway : way := mkWay attrs_new jring.

(* ---- C61 ---- *)
(** toArray of points, line strings and polygons: the positions in order, reversed if asked for. *)
Theorem C61_arrays : (forall p, js_to_array (JPoint p) = Ok (pair_array (lonlat p))) /\
  (forall ns r, ns <> [] -> js_to_array (JLine (mkFW ns r)) = Ok (coords_array (map lonlat (if r then rev (positions ns) else positions ns)))) /\
  (forall ns r, ns <> [] -> js_to_array (JPoly (mkFW ns r)) = Ok (JArr [coords_array (map lonlat (if r then rev (positions ns) else positions ns))])).
Proof. exact views. Qed.
Print Assumptions C61_arrays.
(** Multipolygons: all rings of all polygons. *)
Theorem C61_multipolygon : forall rs, multipolygon_to_array (map polygon_of rs) = Ok (JArr (map rings_array rs)).
Proof. exact multipolygon_view. Qed.
Print Assumptions C61_multipolygon.
(** The geometries of nodes and ways; a way without geometry gives a null geometry and no undefined behaviour. *)
Theorem C61_node : forall n, js_to_array (js_node_geom n) = Ok (pair_array (lonlat (n_pos n))).
Proof. exact node_geometry. Qed.
Print Assumptions C61_node.
Theorem C61_way : forall w r,
  (last_known (w_nodes w) -> js_to_array (js_way_geom r w) =
     Ok (coords_array (map lonlat (if r then rev (positions (w_nodes w)) else positions (w_nodes w))))) /\
  (~ last_known (w_nodes w) -> js_way_geom r w = JNullGeom).
Proof. exact way_geometry. Qed.
Print Assumptions C61_way.
Theorem C61_polygon : forall w,
  (last_known (w_nodes w) -> same_ends (w_nodes w) -> exists g, js_polygon_geom w = Ok g /\
     js_to_array g = Ok (JArr [coords_array (map lonlat (positions (w_nodes w)))])) /\
  (~ (last_known (w_nodes w) /\ same_ends (w_nodes w)) -> js_polygon_geom w = Ok JNullGeom).
Proof. exact polygon_geometry. Qed.
Print Assumptions C61_polygon.
(** The texts of geometries arrive whole. *)
Theorem C61_wkt :
  (forall s p, stored_position p -> exists t, js_wkt (point_text s p) = js_text t /\ read_wkt t = Some (s, WPoint p)) /\
  (forall s ns r, Forall stored_position (positions ns) -> exists t, js_wkt (line_text s (mkFW ns r)) = js_text t /\
     read_wkt t = Some (s, WLine (if r then rev (positions ns) else positions ns))) /\
  (forall s ns r, Forall stored_position (positions ns) -> exists t, js_wkt (poly_text s (mkFW ns r)) = js_text t /\
     read_wkt t = Some (s, WPolygon (positions ns))).
Proof. exact wkt_view. Qed.
Print Assumptions C61_wkt.
Theorem C61_hex :
  (forall s p, exists t l, js_hexwkb (point_hex s p) = js_text t /\ unhex t = Some l /\ read_ewkb l = Some (srid_of s, SPoint (lonlat p))) /\
  (forall s ns r, Z.of_nat (List.length ns) < 4294967296 -> exists t l, js_hexwkb (line_hex s (mkFW ns r)) = js_text t /\ unhex t = Some l /\
     read_ewkb l = Some (srid_of s, SLine (map lonlat (if r then rev (positions ns) else positions ns)))) /\
  (forall s ns r, Z.of_nat (List.length ns) < 4294967296 -> exists t l, js_hexwkb (poly_hex s (mkFW ns r)) = js_text t /\ unhex t = Some l /\
     read_ewkb l = Some (srid_of s, SPoly [map lonlat (positions ns)])).
Proof. exact hex_view. Qed.
Print Assumptions C61_hex.
(** Numbers and indexes. *)
Theorem C61_id : forall z, Z.abs z <= 9007199254740992 -> exists d, js_id z = JNum d /\ Binary.is_finite 53 1024 d = true /\ Binary.B2R 53 1024 d = IZR z.
Proof. exact id_exact. Qed.
Print Assumptions C61_id.
Theorem C61_length : forall A (l : list A), Z.of_nat (List.length l) <= 9007199254740992 ->
  exists d, js_length l = JNum d /\ Binary.is_finite 53 1024 d = true /\ Binary.B2R 53 1024 d = IZR (Z.of_nat (List.length l)).
Proof. exact @length_exact. Qed.
Print Assumptions C61_length.
Theorem C61_version_uid : forall z, 0 <= z <= int32_max -> js_version z = JInt z /\ js_uid z = JInt z.
Proof. exact small_numbers. Qed.
Print Assumptions C61_version_uid.
Theorem C61_timestamp : forall t, 1 <= t <= last_time -> exists s, js_timestamp t = Ok (js_text s) /\ iso_text t s.
Proof. exact time_view. Qed.
Print Assumptions C61_timestamp.
Theorem C61_nodes : forall ns, (forall i n, nth_error ns i = Some n -> js_node_ref ns (Z.of_nat i) = Ok (js_id (wn_ref n))) /\
  (forall i, Z.of_nat (List.length ns) <= i -> js_node_ref ns i = UB).
Proof. exact node_list. Qed.
Print Assumptions C61_nodes.
Theorem C61_members : forall ms, (forall i m t, nth_error ms i = Some m -> m_role m = utf8 t -> short_text t ->
     js_member ms (Z.of_nat i) = Ok (m_type m, js_id (m_ref m), Ok (utf16 t))) /\
  (forall i, Z.of_nat (List.length ms) <= i -> js_member ms i = UB).
Proof. exact member_list. Qed.
Print Assumptions C61_members.
Theorem C61_enumeration : forall (A : Type) (l : list A), Z.of_nat (List.length l) <= int32_max + 1 ->
  js_indexes l = JArr (map JInt (count_from 0 (List.length l))).
Proof. exact @enumeration. Qed.
Print Assumptions C61_enumeration.
Example C61_example : last_known (w_nodes jway) /\ same_ends (w_nodes jway) /\ Forall stored_position (positions jring) /\
  js_way_geom true jway = JLine (mkFW jring true) /\ js_polygon_geom jway = Ok (JPoly (mkFW jring false)) /\
  js_polygon_geom (mkWay attrs_new [jn 1 5 5; jn 2 6 6]) = Ok JNullGeom /\
  js_way_geom false (mkWay attrs_new []) = JNullGeom /\
  js_wkt (line_text false (mkFW [jn 1 5000000 5] true)) = js_text "LINESTRING(0.5 5e-07)" /\
  js_timestamp 1 = Ok (js_text "1970-01-01T00:00:01Z") /\
  js_indexes jring = JArr [JInt 0; JInt 1; JInt 2; JInt 3].
Proof.
  split; [exists [jn 1 10000000 20000000; jn 2 30000000 20000000; jn 3 (-15000000) 5], (jn 1 10000000 20000000); split; reflexivity|].
  split; [exists (jn 1 10000000 20000000), [jn 2 30000000 20000000; jn 3 (-15000000) 5], (jn 1 10000000 20000000); left; split; reflexivity|].
  split; [unfold positions, jring; cbn [map]; repeat first [apply Forall_nil | apply Forall_cons; [vm_compute; repeat split; discriminate|]]|].
  repeat split; vm_compute; reflexivity.
Qed.
(** toWKB ends at the first zero byte: *)
Theorem C61_wkb :
  (forall s p, js_wkb (point_wkb s p) = JStr [1; 1]) /\ (forall s g, js_wkb (line_wkb s g) = JStr [1; 2]) /\
  (forall s g, js_wkb (poly_wkb s g) = JStr [1; 3]).
Proof. exact wkb_cut. Qed.
Print Assumptions C61_wkb.
(** Findings: different points look the same. *)
Theorem C61_wkb_refuted : exists p q, p <> q /\ js_wkb (point_wkb false p) = js_wkb (point_wkb false q).
Proof. exists (mkPos 0 0), (mkPos 1 1). split; [discriminate|]. now rewrite !(proj1 wkb_cut). Qed.
Print Assumptions C61_wkb_refuted.
(** The geometry of a way without nodes cannot be turned into an array. *)
Theorem C61_empty_refuted : exists g, js_to_array (JLine g) = UB.
Proof. exists (mkFW [] false). reflexivity. Qed.
Print Assumptions C61_empty_refuted.
(** Large ids are rounded, large versions become negative. *)
Theorem C61_id_refuted : exists z z', in_i64 z /\ in_i64 z' /\ z <> z' /\ js_id z = js_id z'.
Proof. exact id_rounded. Qed.
Print Assumptions C61_id_refuted.
Theorem C61_version_refuted : exists z, 0 <= z < 4294967296 /\ js_version z = JInt (-2147483648).
Proof. exact version_negative. Qed.
Print Assumptions C61_version_refuted.
(** A way with an unknown position inside has a geometry. *)
Theorem C61_unknown_refuted : exists w, js_way_geom false w <> JNullGeom /\ (exists n, In n (w_nodes w) /\ pos_defined (wn_pos n) = false).
Proof. exact unknown_inside. Qed.
Print Assumptions C61_unknown_refuted.

(* ---- C62 ---- *)
(** Text fields hold the longest part that fits, in whole characters. *)
Theorem C62_text : forall w t, plain t -> 0 <= w <= 255 ->
  (~ splits 256 t -> exists p, js_field_text w (utf16 t) = Ok (utf8 p) /\ longest_part w t p) /\
  (splits 256 t -> js_field_text w (utf16 t) = Throw ERuntime).
Proof. exact field_text. Qed.
Print Assumptions C62_text.
Theorem C62_text_total : forall w u, js_field_text w u = Throw ERuntime \/ exists s, js_field_text w u = Ok s /\ no_nul s.
Proof. exact field_text_total. Qed.
Print Assumptions C62_text_total.
(** Logical fields. *)
Theorem C62_logical : forall t b, plain t -> says t b -> js_field_logical (utf8 t) = Ok b.
Proof. exact logical. Qed.
Print Assumptions C62_logical.
(** add() writes one value for every field. *)
Theorem C62_add : forall fs att, Forall (fun f => usable f (value_of att f)) fs ->
  exists l, js_add fs (Ok tt) att = (l, Ok 1) /\ List.length l = List.length fs /\
    forall i f, nth_error fs i = Some f -> exists d, nth_error l i = Some d /\ written f (Z.of_nat i) (value_of att f) d.
Proof. exact add_ok. Qed.
Print Assumptions C62_add.
(** Whatever the values are: fields in order, all of them only if it returns, none without geometry. *)
Theorem C62_order : forall fs g att l o, js_add fs g att = (l, o) ->
  map dbf_field l = count_from 0 (List.length l) /\ (List.length l <= List.length fs)%nat /\
  (g = Ok tt -> (o = Ok 1 <-> List.length l = List.length fs)) /\ (g <> Ok tt -> l = []).
Proof. exact add_order. Qed.
Print Assumptions C62_order.
(** A program splitting at newlines and tabs reads the table back. *)
Theorem C62_table : forall rows, Forall (fun ts => ts <> [] /\ Forall table_text ts) rows ->
  exists s, csv_file (map (map utf16) rows) = Ok s /\ read_table s = map (map utf8) rows.
Proof. exact table_ok. Qed.
Print Assumptions C62_table.

Definition jfields : list field := [mkField "name" FTString 6 0; mkField "lanes" FTInteger 5 0; mkField "oneway" FTLogical 1 0; mkField "x" FTString 10 0].
(** "Straße" needs 7 bytes *)
Definition strasse : list Z := [83; 116; 114; 97; 223; 101].
Definition jattributes (k : string) : option jsattr :=
  if String.eqb k "name" then Some (AVal (utf16 strasse) 0)
  else if String.eqb k "lanes" then Some (AVal [50] 2)
  else if String.eqb k "oneway" then Some (AVal (utf16 [121; 101; 115]) 0) else None.
Lemma strasse_plain : plain strasse.
Proof. split; [|unfold strasse; cbn [In]; lia]. unfold text, strasse. repeat first [apply Forall_nil | apply Forall_cons; [left; lia|]]. Qed.
Example C62_example_hyps : Forall (fun f => usable f (value_of jattributes f)) jfields.
Proof.
  unfold jfields. repeat apply Forall_cons; [..|apply Forall_nil]; cbn [usable value_of f_name f_type f_width].
  - split; [vm_compute; split; discriminate|]. exists strasse. split; [reflexivity|]. split; [exact strasse_plain|].
    intros (a & c & b & E & H & _). assert (I : In c strasse) by (rewrite E; apply in_or_app; right; now left). unfold strasse in I. cbn [In] in I. lia.
  - exact I.
  - exists [121; 101; 115], (Some true). split; [reflexivity|]. split; [split|].
    + unfold text. repeat first [apply Forall_nil | apply Forall_cons; [left; lia|]].
    + cbn [In]. lia.
    + left. exists 121, [101; 115]. split; [reflexivity|]. split; [unfold yes_chars; cbn [In]; lia|reflexivity].
  - exact I.
Qed.
Example C62_example :
  js_add jfields (Ok tt) jattributes = ([DString 0 (utf8 [83; 116; 114; 97; 223]); DInt 1 2; DBool 2 true; DNull 3], Ok 1) /\
  js_field_text 5 (utf16 strasse) = Ok "Stra"%string /\
  js_field_logical "-7" = Ok None /\ js_field_logical "0" = Ok (Some false) /\
  csv_file [[utf16 strasse; [120]]; [[121]; []]] = Ok (utf8 strasse ++ String "009" (String "120" (String "010" (String "121" (String "009" (String "010" ""))))))%string.
Proof. vm_compute. repeat split. Qed.
(** Findings: text with a character of two units at the limit cannot be written at all. *)
Theorem C62_text_refuted : exists t, plain t /\ forall w, 0 <= w <= 255 -> js_field_text w (utf16 t) = Throw ERuntime.
Proof.
  assert (P : plain (repeat 97 255 ++ [65536])).
  { split; [apply Forall_app; split; [exact (proj1 (repeat_plain 97 255 ltac:(left; lia) ltac:(lia)))|apply Forall_cons; [right; lia|apply Forall_nil]]|].
    intros I. apply in_app_or in I. destruct I as [I|I]; [apply repeat_spec in I; lia|cbn [In] in I; lia]. }
  exists (repeat 97 255 ++ [65536]). split; [exact P|]. intros w W. apply (field_text w _ P W).
  exists (repeat 97 255), 65536, []. repeat split; lia.
Qed.
Print Assumptions C62_text_refuted.
(** A number that does not fit into int as logical value. *)
Theorem C62_logical_overflow : forall s n, number s n -> int32_max < n -> js_field_logical s = UB.
Proof. exact logical_overflow. Qed.
Print Assumptions C62_logical_overflow.
Theorem C62_logical_refuted : exists s n, number s n /\ js_field_logical s = UB.
Proof. exists "3000000000"%string, 3000000000. split; [split; [discriminate|reflexivity]|reflexivity]. Qed.
Print Assumptions C62_logical_refuted.
(** An illegal geometry is reported as success. *)
Theorem C62_illegal_refuted : exists e, e = EIllegalGeometry /\ forall fs att, js_add fs (Throw e) att = ([], Ok 1).
Proof. exists EIllegalGeometry. split; [reflexivity|exact illegal_is_one]. Qed.
Print Assumptions C62_illegal_refuted.
(** With a field of type double the record is left half written. *)
Theorem C62_double_refuted : exists fs att, js_add fs (Ok tt) att = ([DInt 0 5], Throw ERuntime) /\ List.length fs = 3%nat.
Proof.
  exists [mkField "a" FTInteger 5 0; mkField "b" FTDouble 10 2; mkField "c" FTInteger 5 0], (fun _ => Some (AVal [53] 5)).
  split; reflexivity.
Qed.
Print Assumptions C62_double_refuted.
(** Tabs in a field are not escaped. *)
Theorem C62_table_refuted : exists r r', r <> r' /\ csv_file [map utf16 r] = csv_file [map utf16 r'] /\ Forall (Forall plain) [r; r'].
Proof. exact table_confused. Qed.
Print Assumptions C62_table_refuted.
