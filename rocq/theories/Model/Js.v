(** What Javascript programs see and write.  Models /repo/include/osmium/javascript/wrapper/*.hpp.
    Objects of v8 are values; garbage collection and the lifetime of wrapped objects are left out.
    v8::String::New(const char ptr) is only used with ASCII here (WKT, hex, time stamps) or for the
    bytes before the first zero. *)
From Verif Require Import Base.Prelude Base.Decimal Model.Osm Model.Float Model.Time Model.Geom Model.Wkt Model.Shapefile
  Model.Attr Model.Unicode.
Local Open Scope Z_scope.

(** Javascript values; holes in arrays are JUndef *)
Inductive jsval :=
| JUndef
| JNum (d : double)
| JInt (z : Z)
| JBool (b : bool)
| JStr (u : list Z)
| JArr (l : list jsval)
| JNullGeom
| JPoint (p : position)
| JLine (g : from_way)
| JPoly (g : from_way).
(** v8::String::New(const char ptr) for ASCII *)
Definition units_of (s : string) : list Z := map byte_of (list_ascii_of_string s).
Definition js_ascii (s : string) : jsval := JStr (units_of (c_string s)).
(** v8::Array::New(n) *)
Definition arr_new (n : Z) : list jsval := repeat JUndef (Z.to_nat n).
(** v8::Array::Set(i, v) *)
Fixpoint arr_set (l : list jsval) (i : nat) (v : jsval) : list jsval :=
  match l, i with
  | [], O => [v]
  | [], S k => JUndef :: arr_set [] k v
  | _ :: r, O => v :: r
  | x :: r, S k => x :: arr_set r k v
  end.

(* ---- wrapper/geometry.hpp ---- *)
(** wrapper/position.hpp 39-45: OSMPosition::to_array *)
Definition js_coord (x y : double) : jsval := JArr (arr_set (arr_set (arr_new 2) 0 (JNum x)) 1 (JNum y)).
Definition js_position (p : position) : jsval := js_coord (pos_lon p) (pos_lat p).
(** geometry.hpp 110-112: GeometryPoint::to_array *)
Definition point_to_array (p : position) : jsval := js_position p.
(** geometry.hpp 130-138 and 158-166: the loops; [i] counts from 0 to max *)
Fixpoint set_positions (reverse : bool) (max i : Z) (ns : list way_node) (arr : list jsval) : list jsval :=
  match ns with
  | [] => arr
  | n :: r => set_positions reverse max (i + 1) r
                (arr_set arr (Z.to_nat (if reverse then max - i else i)) (js_position (wn_pos n)))
  end.
(** the array of the nodes; with an empty list max is the largest unsigned int and wnl[0] does not
    exist.  The number of nodes is taken to fit into unsigned int. *)
Definition nodes_array (g : from_way) : outcome jsval :=
  if nnodes g =? 0 then UB
  else Ok (JArr (set_positions (fw_reverse g) (nnodes g - 1) 0 (fw_nodes g) (arr_new (nnodes g)))).
(** geometry.hpp 125-140: GeometryLineString::to_array *)
Definition line_to_array (g : from_way) : outcome jsval := nodes_array g.
(** geometry.hpp 151-168: GeometryPolygon::to_array *)
Definition poly_to_array (g : from_way) : outcome jsval :=
  let! ring := nodes_array g in Ok (JArr (arr_set (arr_new 1) 0 ring)).
(** geometry.hpp 179-191: ring_as_array *)
Fixpoint ring_loop (i : nat) (cs : list (double * double)) (arr : list jsval) : list jsval :=
  match cs with [] => arr | c :: r => ring_loop (S i) r (arr_set arr i (js_coord (fst c) (snd c))) end.
Definition ring_as_array (cs : list (double * double)) : jsval := JArr (ring_loop 0 cs (arr_new (Z.of_nat (List.length cs)))).
Fixpoint rings_loop (i : nat) (holes : list (list (double * double))) (arr : list jsval) : list jsval :=
  match holes with [] => arr | h :: r => rings_loop (S i) r (arr_set arr i (ring_as_array h)) end.
(** geometry.hpp 199-206: one round; the cast of another geometry to a polygon is a null pointer *)
Definition polygon_array (g : geos) : outcome jsval :=
  match g with
  | GPolygon ext holes => Ok (JArr (rings_loop 1 holes (arr_set (arr_new (Z.of_nat (List.length holes))) 0 (ring_as_array ext))))
  | _ => UB
  end.
Fixpoint polygons_loop (i : nat) (gs : list geos) (arr : list jsval) : outcome (list jsval) :=
  match gs with
  | [] => Ok arr
  | g :: r => let! p := polygon_array g in polygons_loop (S i) r (arr_set arr i p)
  end.
(** geometry.hpp 193-209: GeometryMultiPolygon::to_array of the geometries of the multipolygon *)
Definition multipolygon_to_array (gs : list geos) : outcome jsval :=
  let! l := polygons_loop 0 gs (arr_new (Z.of_nat (List.length gs))) in Ok (JArr l).

(** geometry.hpp 49-57: to_wkt *)
Definition js_wkt (text : string) : jsval := js_ascii text.
(** geometry.hpp 69-77: to_hexwkb *)
Definition js_hexwkb (text : string) : jsval := js_ascii text.
(** geometry.hpp 59-67: to_wkb; only bytes below 128 come before the first zero *)
Definition js_wkb (bytes : list Z) : jsval := JStr (cstr bytes).

(* ---- wrapper/osm.hpp ---- *)
(** 178-180, 198-200, 117-119: id, changeset, ref of a member: v8::Number::New(double) *)
Definition js_id (z : Z) : jsval := JNum (d_of_Z z).
(** 182-184: version: v8::Integer::New(int32_t) of an unsigned *)
Definition js_version (z : Z) : jsval := JInt (to_i32 z).
(** 190-192: uid *)
Definition js_uid (z : Z) : jsval := JInt (to_i32 z).
(** 186-188: timestamp_as_string *)
Definition js_timestamp (t : Z) : outcome jsval := let! s := to_iso t in Ok (js_ascii s).
(** 82-84, 158-160: length *)
Definition js_length {A} (l : list A) : jsval := JNum (d_of_Z (Z.of_nat (List.length l))).
(** 86-88: get_node_id: unchecked *)
Definition js_node_ref (ns : list way_node) (index : Z) : outcome jsval :=
  match nth_error ns (Z.to_nat index) with Some n => Ok (js_id (wn_ref n)) | None => UB end.
(** 143-145: get_member: unchecked; the member is given by type, ref and role (117-130) *)
Definition js_member (ms : list member) (index : Z) : outcome (ascii * jsval * outcome (list Z)) :=
  match nth_error ms (Z.to_nat index) with
  | Some m => Ok (m_type m, js_id (m_ref m), js_role m)
  | None => UB
  end.
(** 90-99, 147-156: enumerate_nodes, enumerate_members *)
Fixpoint js_indexes_from (i : Z) (n : nat) : list jsval :=
  match n with O => [] | S k => JInt (to_i32 i) :: js_indexes_from (i + 1) k end.
Definition js_indexes {A} (l : list A) : jsval := JArr (js_indexes_from 0 (List.length l)).
(** 226-229: OSMNode::get_geom *)
Definition js_node_geom (n : node) : jsval := JPoint (n_pos n).
(** 244-252: OSMWay::geom; 254-262: reverse_geom *)
Definition js_way_geom (reverse : bool) (w : way) : jsval :=
  if wnl_has_position (w_nodes w) then JLine (linestring_new (w_nodes w) reverse) else JNullGeom.
(** 264-272: polygon_geom; && does not evaluate is_closed() of a way without nodes *)
Definition js_polygon_geom (w : way) : outcome jsval :=
  if wnl_has_position (w_nodes w) then
    let! c := is_closed (w_nodes w) in
    if c then let! g := polygon_new (w_nodes w) false in Ok (JPoly g) else Ok JNullGeom
  else Ok JNullGeom.
(** toArray of these *)
Definition js_to_array (g : jsval) : outcome jsval :=
  match g with
  | JPoint p => Ok (point_to_array p)
  | JLine l => line_to_array l
  | JPoly l => poly_to_array l
  | _ => Ok JUndef
  end.

(* ---- wrapper/export_shapefile.hpp ---- *)
(** A value in the object with the attributes: undefined or null, or what ToString() and
    Int32Value() give. *)
Inductive jsattr := ANull | AVal (text : list Z) (int : Z).
(** calls of add_attribute: field and value *)
Inductive dbf :=
| DNull (n : Z)
| DString (n : Z) (s : string)
| DInt (n : Z) (v : Z)
| DBool (n : Z) (b : bool).
(** 61-76: add_string_attribute: the string written into a field of this width *)
Definition js_field_text (width : Z) (u : list Z) : outcome string :=
  if width <? 0 then Throw ERuntime
  else match u_strToUTF8 width (firstn (Z.to_nat (max_dbf_field_length + 1)) u) with
  | U_ZERO_ERROR s | U_STRING_NOT_TERMINATED_WARNING s | U_BUFFER_OVERFLOW_ERROR s => Ok (c_string s)
  | U_INVALID_CHAR_FOUND => Throw ERuntime
  end.
(** atoi; a value outside of int is undefined behaviour *)
Definition atoi (s : string) : outcome Z := let! v := atoll s in if in_i32b v then Ok v else UB.
(** strncasecmp with one character, [lo] and [up] its two forms *)
Definition starts (s : string) (lo up : ascii) : bool :=
  match s with String c _ => Ascii.eqb c lo || Ascii.eqb c up | EmptyString => false end.
(** 78-88: add_logical_attribute; [s]: the string in UTF-8; None: a null attribute *)
Definition js_field_logical (s : string) : outcome (option bool) :=
  let! v := atoi s in
  if (v =? 1) || starts s "t" "T" || starts s "y" "Y" then Ok (Some true)
  else if String.eqb s "0" || starts s "f" "F" || starts s "n" "N" then Ok (Some false)
  else Ok None.
(** v8::String::Utf8Value; surrogates without partner are taken to be replaced by U+FFFD, which makes no
    difference here *)
Fixpoint utf8_value (u : list Z) : string :=
  match u with
  | [] => EmptyString
  | a :: r =>
      if (55296 <=? a) && (a <? 57344) then
        match r with
        | b :: r1 =>
            if (a <? 56320) && ((56320 <=? b) && (b <? 57344))
            then (u8_append (a * 1024 + b - 56613888) ++ utf8_value r1)%string
            else (u8_append 65533 ++ utf8_value r)%string
        | [] => u8_append 65533
        end
      else (u8_append a ++ utf8_value r)%string
  end.
(** 111-134: the value of field n *)
Definition js_attribute (f : field) (n : Z) (v : jsattr) : outcome dbf :=
  match v with
  | ANull => Ok (DNull n)
  | AVal u i =>
      match f_type f with
      | FTString => let! s := js_field_text (f_width f) u in Ok (DString n s)
      | FTInteger => Ok (DInt n i)
      | FTDouble => Throw ERuntime
      | FTLogical => let! b := js_field_logical (c_string (utf8_value u)) in Ok (match b with Some b => DBool n b | None => DNull n end)
      end
  end.
(** 107-135: the loop over the fields; the calls made, also if it ends with an exception *)
Fixpoint js_attributes (fs : list field) (n : Z) (attributes : string -> option jsattr) : list dbf * outcome unit :=
  match fs with
  | [] => ([], Ok tt)
  | f :: r =>
      match js_attribute f n (match attributes (f_name f) with Some v => v | None => ANull end) with
      | Ok d => let (l, o) := js_attributes r (n + 1) attributes in (d :: l, o)
      | Throw e => ([], Throw e)
      | UB => ([], UB)
      | AssertFail => ([], AssertFail)
      end
  end.
(** 97-137 and 158-174: add.  The inner function returns false for an illegal geometry, the outer one
    does not look at it.  [geometry]: what create_shp_object and add_geometry do.  The result is the
    number given to Javascript. *)
Definition is_illegal (e : exn) : bool := match e with EOther n => n =? 11 | _ => false end.
Definition js_add (fs : list field) (geometry : outcome unit) (attributes : string -> option jsattr) : list dbf * outcome Z :=
  match geometry with
  | Ok _ => let (l, o) := js_attributes fs 0 attributes in (l, let! _ := o in Ok 1)
  | Throw e => if is_illegal e then ([], Ok 1) else ([], Throw e)
  | UB => ([], UB)
  | AssertFail => ([], AssertFail)
  end.

(* ---- wrapper/export_csv.hpp ---- *)
Definition tab : ascii := ascii_of_nat 9.
Definition newline : ascii := ascii_of_nat 10.
(** 49-58: print: the text sent to the stream *)
Fixpoint csv_fields (first : bool) (args : list (list Z)) : outcome string :=
  match args with
  | [] => Ok (String newline EmptyString)
  | a :: r =>
      let! s := v8_String_to_ostream a in let! rest := csv_fields false r in
      Ok ((if first then EmptyString else String tab EmptyString) ++ s ++ rest)%string
  end.
Definition csv_print (args : list (list Z)) : outcome string := csv_fields true args.
Fixpoint csv_file (rows : list (list (list Z))) : outcome string :=
  match rows with [] => Ok EmptyString | a :: r => let! l := csv_print a in let! rest := csv_file r in Ok (l ++ rest)%string end.
