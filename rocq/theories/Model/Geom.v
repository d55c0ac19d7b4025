(** Geometries and their output formats.  Models /repo/include/osmium/geometry.hpp,
    geometry/{point,linestring,polygon,from_way}.hpp and geometry/shplib.hpp.
    Memory is little endian, as the byte order mark of the code assumes.  The text of a double in
    WKT (operator<< with precision 10) is a parameter.  Messages on stderr, the id of geometries
    and the state of the output stream are left out. *)
From Flocq Require Import IEEE754.Bits.
From Verif Require Import Base.Prelude Model.Osm Model.Float.

(** geometry.hpp 67-75 *)
Definition ERingNotClosed : exn := EOther 10.
Definition EIllegalGeometry : exn := EOther 11.

(* ---- bytes ---- *)
(** the bytes of an unsigned value in memory, lowest first *)
Fixpoint le_bytes (n : nat) (x : Z) : list Z :=
  match n with
  | O => []
  | S m => x mod 256 :: le_bytes m (x / 256)
  end.
(** geometry.hpp 120-123: write_binary<uint8_t>, <uint32_t>, <double>; an argument of another type
    is converted to the type first *)
Definition write_u8 (x : Z) : list Z := le_bytes 1 (x mod 256).
Definition write_u32 (x : Z) : list Z := le_bytes 4 (to_u32 x).
Definition write_double (d : double) : list Z := le_bytes 8 (bits_of_b64 d).
(** geometry.hpp 131-132: lookup_hex *)
Definition lookup_hex (i : Z) : ascii :=
  match String.get (Z.to_nat i) "0123456789ABCDEF" with Some c => c | None => Ascii.zero end.
(** a byte read as char, which is signed *)
Definition to_char (b : Z) : Z := if b <? 128 then b else b - 256.
(** geometry.hpp 133-136: one round of the loop of write_hex *)
Definition hex_byte (b : Z) : string :=
  let c := to_char b in
  String (lookup_hex (Z.land (Z.shiftr c 4) 15)) (String (lookup_hex (Z.land c 15)) EmptyString).
Fixpoint hex_bytes (l : list Z) : string :=
  match l with [] => EmptyString | b :: r => (hex_byte b ++ hex_bytes r)%string end.
(** geometry.hpp 130-137: write_hex<uint8_t>, <uint32_t>, <double> *)
Definition hex_u8 (x : Z) : string := hex_bytes (le_bytes 1 (x mod 256)).
Definition hex_u32 (x : Z) : string := hex_bytes (le_bytes 4 (to_u32 x)).
Definition hex_double (d : double) : string := hex_bytes (le_bytes 8 (bits_of_b64 d)).

(** geometry.hpp 37, 46-65 *)
Definition srid : Z := 4326.
Definition wkbPoint : Z := 1.
Definition wkbLineString : Z := 2.
Definition wkbPolygon : Z := 3.
Definition wkbSRID : Z := 536870912.
Definition wkbNDR : Z := 1.
(** geometry.hpp 146-154: write_binary_wkb_header *)
Definition wkb_header (with_srid : bool) (type : Z) : list Z :=
  write_u8 wkbNDR ++
  (if with_srid then write_u32 (Z.lor type wkbSRID) ++ write_u32 srid else write_u32 type).
(** geometry.hpp 163-171: write_hex_wkb_header *)
Definition hex_header (with_srid : bool) (type : Z) : string :=
  (hex_u8 wkbNDR ++
   (if with_srid then hex_u32 (Z.lor type wkbSRID) ++ hex_u32 srid else hex_u32 type))%string.

Definition wkb_pos (p : position) : list Z := write_double (pos_lon p) ++ write_double (pos_lat p).
Definition hex_pos (p : position) : string := (hex_double (pos_lon p) ++ hex_double (pos_lat p))%string.
Fixpoint hex_positions (ps : list position) : string :=
  match ps with [] => EmptyString | p :: r => (hex_pos p ++ hex_positions r)%string end.

(* ---- point ---- *)
(** point.hpp 77-82: write_to_stream as WKB *)
Definition point_wkb (s : bool) (p : position) : list Z := wkb_header s wkbPoint ++ wkb_pos p.
(** point.hpp 84-89: write_to_stream as hex WKB *)
Definition point_hex (s : bool) (p : position) : string := (hex_header s wkbPoint ++ hex_pos p)%string.

(* ---- geometries from ways ---- *)
(** from_way.hpp 32-63: FromWay *)
Record from_way := mkFW { fw_nodes : list way_node; fw_reverse : bool }.
Definition positions (ns : list way_node) : list position := map wn_pos ns.
(** linestring.hpp 44-58: the constructors *)
Definition linestring_new (ns : list way_node) (reverse : bool) : from_way := mkFW ns reverse.
(** the nodes in the order of the loops of LineString (66-70, 78-88, 95-105) *)
Definition line_order (g : from_way) : list way_node := if fw_reverse g then rev (fw_nodes g) else fw_nodes g.
Definition nnodes (g : from_way) : Z := Z.of_nat (List.length (fw_nodes g)).
(** linestring.hpp 74-89 *)
Definition line_wkb (s : bool) (g : from_way) : list Z :=
  wkb_header s wkbLineString ++ write_u32 (nnodes g) ++ flat_map wkb_pos (positions (line_order g)).
(** linestring.hpp 91-106 *)
Definition line_hex (s : bool) (g : from_way) : string :=
  (hex_header s wkbLineString ++ hex_u32 (nnodes g) ++ hex_positions (positions (line_order g)))%string.
(** polygon.hpp 45-62: the constructors *)
Definition polygon_new (ns : list way_node) (reverse : bool) : outcome from_way :=
  let! c := is_closed ns in if c then Ok (mkFW ns reverse) else Throw ERingNotClosed.
(** polygon.hpp 74-83: the loop does not look at reverse() *)
Definition poly_wkb (s : bool) (g : from_way) : list Z :=
  wkb_header s wkbPolygon ++ write_u32 1 ++ write_u32 (nnodes g) ++ flat_map wkb_pos (positions (fw_nodes g)).
(** polygon.hpp 85-94 *)
Definition poly_hex (s : bool) (g : from_way) : string :=
  (hex_header s wkbPolygon ++ hex_u32 1 ++ hex_u32 (nnodes g) ++ hex_positions (positions (fw_nodes g)))%string.

(* ---- WKT ---- *)
Section WKT.
  (** the text of a double *)
  Variable fmt : double -> string.
  (** geometry.hpp 250-257: LonLatListWriter::operator() with the default delimiters; for_each
      copies the functor, its state m_first lives through one loop *)
  Fixpoint lonlat_list (first : bool) (ps : list position) : string :=
    match ps with
    | [] => EmptyString
    | p :: r => ((if first then "" else ",") ++ fmt (pos_lon p) ++ " " ++ fmt (pos_lat p) ++ lonlat_list false r)%string
    end.
  Definition wkt_srid (s : bool) : string := if s then "SRID=4326;"%string else EmptyString.
  (** point.hpp 70-75 *)
  Definition point_wkt (s : bool) (p : position) : string :=
    (wkt_srid s ++ "POINT(" ++ fmt (pos_lon p) ++ " " ++ fmt (pos_lat p) ++ ")")%string.
  (** linestring.hpp 60-72 *)
  Definition line_wkt (s : bool) (g : from_way) : string :=
    (wkt_srid s ++ "LINESTRING(" ++ lonlat_list true (positions (line_order g)) ++ ")")%string.
  (** polygon.hpp 64-72 *)
  Definition poly_wkt (s : bool) (g : from_way) : string :=
    (wkt_srid s ++ "POLYGON((" ++ lonlat_list true (positions (fw_nodes g)) ++ "))")%string.
End WKT.

(* ---- shapelib ---- *)
(** shplib.hpp 82-91: the loop: skips a node with the ref or the position of the node before it *)
Fixpoint checked (prev : way_node) (ns : list way_node) : list position :=
  match ns with
  | [] => []
  | n :: r =>
      if wn_ref n =? wn_ref prev then checked n r
      else if pos_eqb (wn_pos n) (wn_pos prev) then checked n r
      else wn_pos n :: checked n r
  end.
(** shplib.hpp 64-101: create_line_or_polygon: the vectors lon_checked and lat_checked.  The number
    of nodes is taken to fit into int. *)
Definition line_or_polygon (g : from_way) : outcome (list double * list double) :=
  if negb (wnl_has_position (fw_nodes g)) then Throw ERuntime
  else match fw_nodes g with
  | [] => Throw EIllegalGeometry
  | [_] => Throw EIllegalGeometry
  | n0 :: r =>
      let ps := wn_pos n0 :: checked n0 r in
      let lon := map pos_lon ps in
      let lat := map pos_lat ps in
      if (List.length lon =? 1)%nat then Throw EIllegalGeometry
      else Ok (if fw_reverse g then (rev lon, rev lat) else (lon, lat))
  end.

(** a geometry of the GEOS library: line strings and linear rings, polygons, collections *)
Inductive geos :=
| GLine (cs : list (double * double))
| GPolygon (ext : list (double * double)) (holes : list (list (double * double)))
| GMulti (l : list geos)
| GOther.
(** the three vectors of create_shp_object *)
Record dump := mkDump { d_parts : list Z; d_x : list double; d_y : list double }.
(** shplib.hpp 145-154: a line string or linear ring *)
Definition dump_line (cs : list (double * double)) (d : dump) : dump :=
  mkDump (d_parts d ++ [Z.of_nat (List.length (d_x d))]) (d_x d ++ map fst cs) (d_y d ++ map snd cs).
(** shplib.hpp 127-158: dump_geometry; sizes are taken to fit into int *)
Fixpoint dump_geometry (g : geos) (d : dump) : outcome dump :=
  match g with
  | GMulti l =>
      (fix go (l : list geos) (d : dump) : outcome dump :=
         match l with [] => Ok d | x :: r => let! d' := dump_geometry x d in go r d' end) l d
  | GPolygon ext holes => Ok (fold_left (fun d h => dump_line h d) holes (dump_line ext d))
  | GLine cs => Ok (dump_line cs d)
  | GOther => Throw ERuntime
  end.
(** shplib.hpp 168-188: create_shp_object of a multipolygon; the address of element 0 of an empty
    vector is UB *)
Definition multipolygon_shp (g : geos) : outcome dump :=
  let! d := dump_geometry g (mkDump [] [] []) in
  match d_parts d, d_x d with [], _ | _, [] => UB | _, _ => Ok d end.
