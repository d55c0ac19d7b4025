(** Values of the OSM data model: positions, bounds, segments, tags, objects.
    Models /repo/include/osmium/osm/*.hpp.
    Simplification: objects are immutable values; a C++ setter becomes a function
    returning the new value.  Sharing via shared_ptr is modelled in Model/Reuse.v. *)
From Verif Require Import Base.Prelude.

(** osm/types.hpp 31-37: enum osm_object_type_t.
    AREA (3) is never produced by the readers. *)
Inductive otype := UNKNOWN | NODE | WAY | RELATION | AREA.
Definition otype_eqb (a b : otype) : bool :=
  match a, b with
  | UNKNOWN, UNKNOWN | NODE, NODE | WAY, WAY | RELATION, RELATION | AREA, AREA => true
  | _, _ => false
  end.

(** osm/position.hpp 132-137: two int32_t coordinates. *)
Record position := mkPos { px : Z; py : Z }.

(** osm/position.hpp 67: Position::invalid = INT32_MAX *)
Definition invalid_coord : Z := int32_max.
(** osm/position.hpp 72-75: Position() *)
Definition undef_pos : position := mkPos invalid_coord invalid_coord.
(** osm/position.hpp 82-85: Position(int64_t,int64_t) narrows to int32_t
    (implementation defined; gcc reduces modulo 2^32). *)
Definition pos_of_int64 (x y : Z) : position := mkPos (to_i32 x) (to_i32 y).
(** osm/position.hpp 92-94: defined() *)
Definition pos_defined (p : position) : bool :=
  negb (px p =? invalid_coord) && negb (py p =? invalid_coord).
(** osm/position.hpp 142-144: operator== *)
Definition pos_eqb (p1 p2 : position) : bool := (px p1 =? px p2) && (py p1 =? py p2).
(** osm/position.hpp 151-157: operator< *)
Definition pos_ltb (p1 p2 : position) : bool :=
  if px p1 =? px p2 then py p1 <? py p2 else px p1 <? px p2.

(** osm/bounds.hpp 71-76 *)
Record bounds := mkBounds { bottom_left : position; top_right : position }.
(** osm/bounds.hpp 35-38: Bounds() *)
Definition bounds_new : bounds := mkBounds undef_pos undef_pos.
(** osm/bounds.hpp 40-51: extend().  The four ifs of lines 42-45 in order. *)
Definition bounds_extend (b : bounds) (p : position) : bounds :=
  if pos_defined (bottom_left b) then
    let blx := if px p <? px (bottom_left b) then px p else px (bottom_left b) in
    let trx := if px p >? px (top_right b) then px p else px (top_right b) in
    let bly := if py p <? py (bottom_left b) then py p else py (bottom_left b) in
    let tr_y := if py p >? py (top_right b) then py p else py (top_right b) in
    mkBounds (mkPos blx bly) (mkPos trx tr_y)
  else mkBounds p p.
(** osm/bounds.hpp 53-55: defined() *)
Definition bounds_defined (b : bounds) : bool := pos_defined (bottom_left b).

(** osm/segment.hpp 34-64 *)
Record segment := mkSeg { seg_first : position; seg_second : position }.
(** osm/segment.hpp 67-69: operator== *)
Definition seg_eqb (a b : segment) : bool :=
  pos_eqb (seg_first a) (seg_first b) && pos_eqb (seg_second a) (seg_second b).
(** osm/undirected_segment.hpp 40-45: constructor, swaps if p2 < p1 *)
Definition undirected (p1 p2 : position) : segment :=
  if pos_ltb p2 p1 then mkSeg p2 p1 else mkSeg p1 p2.
(** osm/undirected_segment.hpp 54-60: operator< *)
Definition useg_ltb (a b : segment) : bool :=
  if pos_eqb (seg_first a) (seg_first b) then pos_ltb (seg_second a) (seg_second b)
  else pos_ltb (seg_first a) (seg_first b).

(** osm/tag.hpp 37-66 *)
Record tag := mkTag { tkey : string; tvalue : string }.
(** osm/tag_list.hpp 41-108: std::vector<Tag> *)
Definition tag_list := list tag.
(** osm/tag_list.hpp 91-93: add *)
Definition tl_add (ts : tag_list) (k v : string) : tag_list := ts ++ [mkTag k v].
(** osm/tag_list.hpp 59-61: clear *)
Definition tl_clear (ts : tag_list) : tag_list := [].
(** osm/tag_list.hpp 95-102: get_value_by_key (None models the null pointer) *)
Fixpoint get_value_by_key (ts : tag_list) (k : string) : option string :=
  match ts with
  | [] => None
  | t :: r => if String.eqb (tkey t) k then Some (tvalue t) else get_value_by_key r k
  end.

(** osm/object.hpp 294-307: the attributes all objects share. *)
Record attrs := mkAttrs {
  o_id : Z; o_version : Z; o_changeset : Z; o_timestamp : Z; o_endtime : Z;
  o_uid : Z; o_user : string; o_visible : bool; o_tags : tag_list }.
(** osm/object.hpp 267-277: Object() *)
Definition attrs_new : attrs := mkAttrs 0 0 0 0 0 (-1) ""%string true [].

(** osm/node.hpp 38-80 *)
Record node := mkNode { n_attrs : attrs; n_pos : position }.
(** osm/way_node.hpp 75-80 *)
Record way_node := mkWN { wn_ref : Z; wn_pos : position }.
(** osm/way.hpp 39-41 *)
Record way := mkWay { w_attrs : attrs; w_nodes : list way_node }.
(** osm/relation_member.hpp 94-100 *)
Record member := mkMember { m_type : ascii; m_ref : Z; m_role : string }.
(** osm/relation.hpp 67-71 *)
Record relation := mkRelation { r_attrs : attrs; r_members : list member }.

(** osm/node.hpp 46, way.hpp 45, relation.hpp 38: default constructors *)
Definition node_new : node := mkNode attrs_new undef_pos.
Definition way_new : way := mkWay attrs_new [].
Definition relation_new : relation := mkRelation attrs_new [].

(** A stream of objects as delivered by a reader. *)
Inductive object := ONode (n : node) | OWay (w : way) | ORel (r : relation).
Definition obj_type (o : object) : otype :=
  match o with ONode _ => NODE | OWay _ => WAY | ORel _ => RELATION end.
Definition obj_attrs (o : object) : attrs :=
  match o with ONode n => n_attrs n | OWay w => w_attrs w | ORel r => r_attrs r end.
Definition obj_id (o : object) : Z := o_id (obj_attrs o).

(** osm/node.hpp 87-93, way.hpp 113-119, relation.hpp 78-84, area.hpp 137-143:
    operator< (the same text four times).  std::abs(INT64_MIN) is UB. *)
Definition std_abs (x : Z) : outcome Z := if x =? int64_min then UB else Ok (Z.abs x).
Definition obj_lt (lid lver rid rver : Z) : outcome bool :=
  if lid =? rid then Ok (lver <? rver)
  else let! a := std_abs lid in let! b := std_abs rid in Ok (a <? b).

(** osm/way_node_list.hpp 127-129: is_closed(); front()/back() of an empty vector is UB *)
Definition is_closed (ns : list way_node) : outcome bool :=
  match ns with
  | [] => UB
  | n :: r => Ok (wn_ref n =? wn_ref (last r n))
  end.
(** osm/way_node.hpp 63-65: WayNode::has_position *)
Definition wn_has_position (n : way_node) : bool := pos_defined (wn_pos n).
(** osm/way_node_list.hpp 131-137: has_position(): looks at the last node only *)
Definition wnl_has_position (ns : list way_node) : bool :=
  match ns with
  | [] => false
  | n :: r => wn_has_position (last r n)
  end.
(** osm/way.hpp 81-83, way_node_list.hpp 154-157: add_node / add(ref) *)
Definition add_node (w : way) (ref : Z) : way :=
  mkWay (w_attrs w) (w_nodes w ++ [mkWN ref undef_pos]).

(** osm/relation_member.hpp 49: max_length_role = 255*4+1 *)
Definition max_length_role : Z := 1021.
Definition slen (s : string) : Z := Z.of_nat (String.length s).
(** osm/relation_member.hpp 64-75: type_name *)
Definition type_name (t : ascii) : string :=
  (if Ascii.eqb t "n" then "node" else if Ascii.eqb t "w" then "way"
   else if Ascii.eqb t "r" then "relation" else "unknown")%string.
(** osm/relation_member_list.hpp 76-86: add_member.  The vector is resized first, then
    type and ref are written, then role() may throw (relation_member.hpp 86-92): the
    result is the member list after the call and whether it threw. *)
Definition add_member (ms : list member) (t : ascii) (ref : Z) (role : string)
  : list member * option exn :=
  if slen role >? max_length_role then (ms ++ [mkMember t ref ""%string], Some ELength)
  else (ms ++ [mkMember t ref role], None).
(** osm/relation.hpp 60-65: get_member (osm_sequence_id_t is uint32_t); None = NULL *)
Definition get_member (ms : list member) (index : Z) : option member :=
  let i := to_u32 index in
  if i <? to_u32 (Z.of_nat (List.length ms)) then nth_error ms (Z.to_nat i) else None.

(** osm/area.hpp 41-44: sgn *)
Definition sgn (v : Z) : Z := Z.b2z (0 <? v) - Z.b2z (v <? 0).
(** osm/area.hpp 71-76: Area(const Relation&): id*2+sgn(id); signed overflow is UB *)
Definition area_id_of_relation (id : Z) : outcome Z :=
  let d := id * 2 in
  if in_i64b d then let r := d + sgn id in if in_i64b r then Ok r else UB else UB.
(** osm/area.hpp 79-84: Area(const Way&) *)
Definition area_id_of_way (id : Z) : outcome Z :=
  let d := id * 2 in if in_i64b d then Ok d else UB.
(** osm/area.hpp 116-118: from_way(); C's % truncates towards zero *)
Definition area_from_way (id : Z) : bool := Z.rem id 2 =? 0.
(** osm/area.hpp 121-123: orig_id(); C's / truncates towards zero *)
Definition area_orig_id (id : Z) : Z := Z.quot id 2.
