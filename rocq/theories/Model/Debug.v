(** The dump of a stream of objects as text: handler/debug.hpp, and the operator<< of bounds.
    The output stream is a text and the notation for doubles it was last set to; writing to it does
    not fail.  The default notation of a stream is printf's "%g" with 6 digits, std::fixed with
    setprecision(7) is "%.7f" (ISO C++ 22.4.2.2.2). *)
From Verif Require Import Base.Prelude Base.Decimal Model.Osm Model.Float Model.Time Model.Decfloat Model.Wkt Model.OsmFile
  Model.Handler Model.Pbf.
Local Open Scope string_scope.

(** std::string::c_str() written to a stream: the text up to the first NUL (osm/object.hpp 180,
    osm/tag.hpp 49-55, osm/relation_member.hpp 82) *)
Definition c_text (s : string) : string := upto_first zero s.
Definition nl : string := String "010" "".

(** handler/debug.hpp 118-119: m_has_multiple_object_versions, m_output_stream with what was written
    to it, and its notation for doubles: true after std::fixed << std::setprecision(7) *)
Record dstate := mkDS { d_hist : bool; d_fixed : bool; d_out : string }.
(** the constructor, debug.hpp 42-46, with the stream as it is at that time *)
Definition debug_new (hist : bool) (fixed : bool) : dstate := mkDS hist fixed "".
Definition put (s : dstate) (t : string) : dstate := mkDS (d_hist s) (d_fixed s) (d_out s ++ t).

(** m_output_stream << double *)
Definition put_double (fixed : bool) : double -> string := if fixed then printf_f 7 else printf_g 6.
(** osm/bounds.hpp 78-82: operator<< *)
Definition bounds_out (fixed : bool) (b : bounds) : string :=
  "(" ++ put_double fixed (pos_lon (bottom_left b)) ++ "," ++ put_double fixed (pos_lat (bottom_left b)) ++ ","
  ++ put_double fixed (pos_lon (top_right b)) ++ "," ++ put_double fixed (pos_lat (top_right b)) ++ ")".

(** debug.hpp 48-57: init; mv is meta.has_multiple_object_versions() *)
Definition debug_init (m : meta) (mv : bool) (s : dstate) : dstate :=
  mkDS (if mv then true else d_hist s) (d_fixed s)
    (d_out s ++ "meta:" ++ nl ++ "  generator=" ++ mt_generator m ++ nl ++
     (if bounds_defined (mt_bounds m) then "  bounds=" ++ bounds_out (d_fixed s) (mt_bounds m) ++ nl else "")).

(** debug.hpp 133-136: the tags *)
Fixpoint put_tags (ts : list tag) : string :=
  match ts with
  | [] => ""
  | t :: r => "    k=|" ++ c_text (tkey t) ++ "| v=|" ++ c_text (tvalue t) ++ "|" ++ nl ++ put_tags r
  end.
(** debug.hpp 121-137: print_meta; osm/object.hpp 128-138 for the times *)
Definition print_meta (hist : bool) (a : attrs) : outcome string :=
  let! ts := to_iso (o_timestamp a) in
  let! h := if hist then
              let! e := to_iso (o_endtime a) in
              Ok (nl ++ "  visible=" ++ (if o_visible a then "yes" else "no") ++ nl ++ "  endtime=" ++ e)
            else Ok "" in
  Ok ("  id=" ++ print_Z (o_id a) ++ nl ++ "  version=" ++ print_Z (o_version a) ++ nl ++ "  uid=" ++ print_Z (o_uid a)
      ++ nl ++ "  user=|" ++ c_text (o_user a) ++ "|" ++ nl ++ "  changeset=" ++ print_Z (o_changeset a)
      ++ nl ++ "  timestamp=" ++ ts ++ h
      ++ nl ++ "  tags: (count=" ++ print_Z (Z.of_nat (List.length (o_tags a))) ++ ")" ++ nl ++ put_tags (o_tags a)).

(** debug.hpp 84-87 *)
Fixpoint put_refs (ns : list way_node) : string :=
  match ns with [] => "" | n :: r => "    ref=" ++ print_Z (wn_ref n) ++ nl ++ put_refs r end.
(** debug.hpp 102-105 *)
Fixpoint put_members (ms : list member) : string :=
  match ms with
  | [] => ""
  | m :: r => "    type=" ++ String (m_type m) (" ref=" ++ print_Z (m_ref m) ++ " role=|" ++ c_text (m_role m) ++ "|" ++ nl ++ put_members r)
  end.
(** debug.hpp 63-69, 79-88, 98-106: node, way, relation *)
Definition debug_object (hist : bool) (o : object) : outcome string :=
  let! m := print_meta hist (obj_attrs o) in
  match o with
  | ONode n => Ok ("node:" ++ nl ++ m ++ "  lon=" ++ printf_f 7 (pos_lon (n_pos n)) ++ nl ++ "  lat=" ++ printf_f 7 (pos_lat (n_pos n)) ++ nl)
  | OWay w => Ok ("way:" ++ nl ++ m ++ "  node_count=" ++ print_Z (Z.of_nat (List.length (w_nodes w))) ++ nl ++ "  nodes:" ++ nl ++ put_refs (w_nodes w))
  | ORel r => Ok ("relation:" ++ nl ++ m ++ "  members: (count=" ++ print_Z (Z.of_nat (List.length (r_members r))) ++ ")" ++ nl ++ put_members (r_members r))
  end.

(** debug.hpp 59-61, 71-77, 90-96, 108-110.  There are no other groups. *)
Definition group_name (t : otype) : string :=
  match t with NODE => "nodes" | WAY => "ways" | RELATION => "relations" | _ => "" end.

(** debug.hpp 38-139: Debug as a handler; area() is that of Base (handler.hpp 107) and does nothing *)
Definition debug (m : meta) (mv : bool) (c : callback) (s : dstate) : dstate * option halt :=
  match c with
  | CInit => (debug_init m mv s, None)
  | CBefore t => (put s ("before_" ++ group_name t ++ nl), None)
  | CAfter t => (put s ("after_" ++ group_name t ++ nl), None)
  | CObj o =>
      match debug_object (d_hist s) o with
      | Ok t => let s' := put s t in
                (mkDS (d_hist s') (match o with ONode _ => true | _ => d_fixed s' end) (d_out s'), None)
      | Throw e => (s, Some (HExn e))
      | UB | AssertFail => (s, Some HUB)
      end
  | CArea _ => (s, None)
  | CFinal => (put s ("final" ++ nl), None)
  end.
