(** Specification of OSM XML: documents as trees, the objects they describe, what of an object
    is kept in a file, and what is expected of the XML libraries. *)
From Coq Require Import Reals.
From Verif Require Import Base.Prelude Base.Decimal Model.Osm Model.Float Model.OsmFile Model.Handler Model.Xml
  Spec.TimeSpec Spec.FloatSpec Spec.DecimalSpec.
From Verif Require Model.Pbf.

(* ---- documents ---- *)
Inductive xml := Elem (name : string) (a : xattrs) (kids : list xml).
(** the elements of a document as a parser meets them, and as a writer has to produce them *)
Fixpoint events_of (x : xml) : list event :=
  match x with Elem n a kids => EvStart n a :: flat_map events_of kids ++ [EvEnd n] end.
Fixpoint calls_of (x : xml) : list wcall :=
  match x with
  | Elem n a kids => WStart n :: map (fun kv => WAttr (fst kv) (snd kv)) a ++ flat_map calls_of kids ++ [WEnd]
  end.
(** value of an attribute *)
Fixpoint attr (k : string) (a : xattrs) : option string :=
  match a with
  | [] => None
  | (n, v) :: r => if String.eqb n k then Some v else attr k r
  end.
Definition attr_or (d k : string) (a : xattrs) : string := match attr k a with Some v => v | None => d end.

(* ---- what an element describes ---- *)
(** text and value of a number, a time and a coordinate *)
Definition number_text (s : string) (n : Z) : Prop := denotes s n /\ in_i64 n.
Definition coordinate_near (s : string) (n : Z) : Prop :=
  in_i32 n /\ exists r, decimal s r /\ (Rabs (IZR n * precision - r) <= precision / 2 + / 1000000000000)%R.
Definition tags_of (kids : list xml) : list tag :=
  flat_map (fun e => match e with
                     | Elem n a _ => if String.eqb n "tag" then [mkTag (attr_or "" "k" a) (attr_or "" "v" a)] else []
                     end) kids.
Definition refs_of (kids : list xml) : list string :=
  flat_map (fun e => match e with
                     | Elem n a _ => if String.eqb n "nd" then match attr "ref" a with Some s => [s] | None => [] end else []
                     end) kids.
Definition members_of (kids : list xml) : list xattrs :=
  flat_map (fun e => match e with Elem n a _ => if String.eqb n "member" then [a] else [] end) kids.
(** [x] has the attributes given by [a] and the tags among [kids]; [del]: in a delete section *)
Record attrs_described (del : bool) (a : xattrs) (kids : list xml) (x : attrs) : Prop := {
  ad_id : match attr "id" a with Some s => number_text s (o_id x) | None => o_id x = 0 end;
  ad_version : match attr "version" a with
               | Some s => exists n, number_text s n /\ o_version x = n mod 4294967296
               | None => o_version x = 0 end;
  ad_changeset : match attr "changeset" a with
                 | Some s => exists n, number_text s n /\ in_i32 (o_changeset x) /\ (o_changeset x - n) mod 4294967296 = 0
                 | None => o_changeset x = 0 end;
  ad_timestamp : match attr "timestamp" a with Some s => iso_text (o_timestamp x) s | None => o_timestamp x = 0 end;
  ad_uid : match attr "uid" a with
           | Some s => exists n, number_text s n /\ in_i32 (o_uid x) /\ (o_uid x - n) mod 4294967296 = 0
           | None => o_uid x = -1 end;
  ad_user : o_user x = attr_or "" "user" a;
  ad_visible : o_visible x = match attr "visible" a with Some s => negb (String.eqb s "false") | None => negb del end;
  ad_endtime : o_endtime x = 0;
  ad_tags : o_tags x = tags_of kids }.
Definition coordinate_described (k : string) (a : xattrs) (n : Z) : Prop :=
  match attr k a with Some s => coordinate_near s n | None => n = 2147483647 end.
Definition member_described (a : xattrs) (m : member) : Prop :=
  m_type m = first_char (attr_or "x" "type" a) /\
  match attr "ref" a with Some s => number_text s (m_ref m) | None => m_ref m = 0 end /\
  m_role m = attr_or "" "role" a.
Definition described (del : bool) (e : xml) (o : object) : Prop :=
  match e, o with
  | Elem name a kids, ONode n =>
      name = "node"%string /\ attrs_described del a kids (n_attrs n) /\
      coordinate_described "lon" a (px (n_pos n)) /\ coordinate_described "lat" a (py (n_pos n))
  | Elem name a kids, OWay w =>
      name = "way"%string /\ attrs_described del a kids (w_attrs w) /\
      Forall2 (fun s n => number_text s (wn_ref n) /\ wn_pos n = undef_pos) (refs_of kids) (w_nodes w)
  | Elem name a kids, ORel r =>
      name = "relation"%string /\ attrs_described del a kids (r_attrs r) /\
      Forall2 member_described (members_of kids) (r_members r)
  end.

(* ---- documents the reader understands ---- *)
Definition is_object_name (n : string) : bool := String.eqb n "node" || String.eqb n "way" || String.eqb n "relation".
Definition if_there (k : string) (a : xattrs) (P : string -> Prop) : Prop := match attr k a with Some s => P s | None => True end.
Definition readable_number (s : string) : Prop := exists n, number_text s n.
Definition readable_coordinate (s : string) : Prop := exists r, decimal s r /\ coordinate_range r.
Definition readable_attrs (a : xattrs) : Prop :=
  NoDup (map fst a) /\
  if_there "id" a readable_number /\ if_there "version" a readable_number /\ if_there "changeset" a readable_number /\
  if_there "uid" a readable_number /\ if_there "timestamp" a (fun s => exists t, iso_text t s) /\
  if_there "user" a (fun s => slen s <= 1021) /\
  if_there "lon" a readable_coordinate /\ if_there "lat" a readable_coordinate.
(** an element inside of an object: it has no elements inside *)
Definition readable_kid (object_name : string) (e : xml) : Prop :=
  match e with
  | Elem n a kids =>
      kids = [] /\ NoDup (map fst a) /\
      (object_name = "way"%string -> n = "nd"%string -> if_there "ref" a readable_number) /\
      (object_name = "relation"%string -> n = "member"%string -> if_there "ref" a readable_number /\ if_there "role" a (fun s => slen s <= 1021))
  end.
Definition readable_bounds (a : xattrs) : Prop :=
  NoDup (map fst a) /\ if_there "minlon" a readable_coordinate /\ if_there "minlat" a readable_coordinate /\
  if_there "maxlon" a readable_coordinate /\ if_there "maxlat" a readable_coordinate.
(** elements below the root: objects, and anything else, which may contain objects.  [del]: inside
    of a delete section, in which there is no further delete section. *)
Fixpoint readable (del : bool) (e : xml) : Prop :=
  match e with
  | Elem n a kids =>
      if is_object_name n then readable_attrs a /\ Forall (readable_kid n) kids
      else
        (n = "bounds"%string -> readable_bounds a) /\
        n <> "osm"%string /\ n <> "osmChange"%string /\ (del = true -> n <> "delete"%string) /\
        (fix all (l : list xml) : Prop :=
           match l with [] => True | k :: r => readable (del || String.eqb n "delete") k /\ all r end) kids
  end.
(** the object elements of a document in document order, with the delete section they are in *)
Fixpoint objects_in (del : bool) (e : xml) : list (bool * xml) :=
  match e with
  | Elem n a kids =>
      if is_object_name n then [(del, e)] else flat_map (objects_in (del || String.eqb n "delete")) kids
  end.
(** the bounds elements, and the corners they describe *)
Fixpoint bounds_in (e : xml) : list xattrs :=
  match e with
  | Elem n a kids =>
      if is_object_name n then [] else (if String.eqb n "bounds" then [a] else []) ++ flat_map bounds_in kids
  end.
Definition corners_described (a : xattrs) (c : position * position) : Prop :=
  coordinate_described "minlon" a (px (fst c)) /\ coordinate_described "minlat" a (py (fst c)) /\
  coordinate_described "maxlon" a (px (snd c)) /\ coordinate_described "maxlat" a (py (snd c)).
(** a document the reader understands *)
Definition readable_document (root : string) (a : xattrs) (kids : list xml) : Prop :=
  (root = "osm"%string \/ root = "osmChange"%string -> NoDup (map fst a) /\ if_there "version" a (fun s => s = "0.6"%string)) /\
  Forall (readable false) kids.
(** what the reader knows of the document as a whole: the generator, and the box around the corners *)
Definition meta_described (root : string) (a : xattrs) (kids : list xml) (m : Pbf.meta) : Prop :=
  Pbf.mt_generator m = (if is_root_name root then attr_or "" "generator" a else ""%string) /\
  exists cs, Forall2 corners_described (flat_map bounds_in kids) cs /\
    Pbf.mt_bounds m = fold_left bounds_extend (flat_map (fun c => [fst c; snd c]) cs) bounds_new.
(** every object is announced by its type and handed out *)
Definition announced (os : list object) : list group :=
  flat_map (fun o => [(obj_type o, []); (obj_type o, [o])]) os.

(* ---- what is kept in a file ---- *)
Definition kept_attrs (ft : ftype) (a : attrs) : attrs :=
  mkAttrs (o_id a) (o_version a) (o_changeset a) (o_timestamp a) 0
    (if 0 <? o_uid a then o_uid a else -1) (if 0 <? o_uid a then o_user a else ""%string)
    (match ft with FtOSM => true | _ => o_visible a end) (o_tags a).
Definition kept (ft : ftype) (o : object) : object :=
  match o with
  | ONode n => ONode (mkNode (kept_attrs ft (n_attrs n)) (if pos_defined (n_pos n) then n_pos n else undef_pos))
  | OWay w => OWay (mkWay (kept_attrs ft (w_attrs w)) (map (fun n => mkWN (wn_ref n) undef_pos) (w_nodes w)))
  | ORel r => ORel (mkRelation (kept_attrs ft (r_attrs r))
                (map (fun m => mkMember (first_char (type_name (m_type m))) (m_ref m) (m_role m)) (r_members r)))
  end.
(** the values the attributes of an object can have in C++, a time of the years 1970 to 9999, and
    names and roles as the setters accept them *)
Definition attrs_in_range (a : attrs) : Prop :=
  in_i64 (o_id a) /\ in_u32 (o_version a) /\ in_i32 (o_changeset a) /\ in_i32 (o_uid a) /\
  0 <= o_timestamp a <= last_time /\ slen (o_user a) <= 1021.
Definition in_range (o : object) : Prop :=
  attrs_in_range (obj_attrs o) /\
  match o with
  | ONode n => in_i32 (px (n_pos n)) /\ in_i32 (py (n_pos n))
  | OWay w => Forall (fun n => in_i64 (wn_ref n)) (w_nodes w)
  | ORel r => Forall (fun m => in_i64 (m_ref m) /\ slen (m_role m) <= 1021) (r_members r)
  end.
Definition bounds_in_range (b : bounds) : Prop :=
  bounds_defined b = true ->
  in_i32 (px (bottom_left b)) /\ in_i32 (py (bottom_left b)) /\ in_i32 (px (top_right b)) /\ in_i32 (py (top_right b)) /\
  px (bottom_left b) <= px (top_right b) /\ py (bottom_left b) <= py (top_right b).
Definition kept_bounds (b : bounds) : bounds := if bounds_defined b then b else bounds_new.

(** sections of change files *)
Definition section_name (o : object) : string :=
  (if o_visible (obj_attrs o) then if (o_version (obj_attrs o) =? 1)%Z then "create" else "modify" else "delete")%string.
Fixpoint alternate (l : list string) : Prop :=
  match l with
  | a :: ((b :: _) as r) => a <> b /\ alternate r
  | _ => True
  end.

(* ---- text ---- *)
(** one character of an XML 1.0 document in UTF-8 *)
Definition byte (c : ascii) : Z := Z.of_nat (nat_of_ascii c).
Definition continuation (c : ascii) : Prop := 128 <= byte c < 192.
Inductive xml_char : string -> Prop :=
| xc_1 a : In (byte a) [9; 10; 13] \/ 32 <= byte a < 128 -> xml_char (String a "")
| xc_2 a b : 194 <= byte a < 224 -> continuation b -> xml_char (String a (String b ""))
| xc_3 a b c code : 224 <= byte a < 240 -> continuation b -> continuation c ->
    code = ((byte a - 224) * 64 + (byte b - 128)) * 64 + (byte c - 128) ->
    2048 <= code < 55296 \/ 57344 <= code < 65534 -> xml_char (String a (String b (String c "")))
| xc_4 a b c d code : 240 <= byte a < 245 -> continuation b -> continuation c -> continuation d ->
    code = (((byte a - 240) * 64 + (byte b - 128)) * 64 + (byte c - 128)) * 64 + (byte d - 128) ->
    65536 <= code < 1114112 -> xml_char (String a (String b (String c (String d "")))).
Inductive xml_text : string -> Prop :=
| xt_nil : xml_text ""
| xt_cons c s : xml_char c -> xml_text s -> xml_text (c ++ s).
(** names made of letters *)
Definition letter (c : ascii) : Prop := 65 <= byte c < 91 \/ 97 <= byte c < 123.
Fixpoint letters (s : string) : Prop := match s with EmptyString => True | String c r => letter c /\ letters r end.
Definition xml_name (s : string) : Prop := s <> ""%string /\ letters s.
(** documents that can be written in XML *)
Inductive writable : xml -> Prop :=
| writable_elem n a kids : xml_name n -> NoDup (map fst a) ->
    Forall (fun kv => xml_name (fst kv) /\ xml_text (snd kv)) a -> Forall writable kids -> writable (Elem n a kids).
(** texts of an object *)
Definition has_xml_texts (o : object) : Prop :=
  xml_text (o_user (obj_attrs o)) /\ Forall (fun t => xml_text (tkey t) /\ xml_text (tvalue t)) (o_tags (obj_attrs o)) /\
  match o with ORel r => Forall (fun m => xml_text (m_role m)) (r_members r) | _ => True end.

(* ---- the libraries ---- *)
(** giving a parser a document in pieces: all events, and no error *)
Fixpoint feeds {E} (expat : E -> string -> bool -> E * list event * bool) (e : E) (bufs : list string)
  : list event * bool :=
  match bufs with
  | [] => let '(_, evs, ok) := expat e ""%string true in (evs, ok)
  | b :: r =>
      let '(e', evs, ok) := expat e b false in
      if ok then let (evs', ok') := feeds expat e' r in (evs ++ evs', ok') else (evs, false)
  end.
Fixpoint joined (l : list string) : string := match l with [] => ""%string | s :: r => (s ++ joined r)%string end.
(** [parses expat e text es]: however the text is cut into pieces, the parser makes the calls es
    and finds no error *)
Definition parses {E} (expat : E -> string -> bool -> E * list event * bool) (e : E) (text : string) (es : list event) : Prop :=
  forall bufs, joined bufs = text -> ~ In ""%string bufs -> feeds expat e bufs = (es, true).
(** [writes lib free contents l cs text]: calls that all succeed and are followed by a successful
    flush produce the text *)
Fixpoint all_succeed {L} (lib : L -> wcall -> L * bool) (l : L) (cs : list wcall) : option L :=
  match cs with
  | [] => Some l
  | c :: r => let (l', ok) := lib l c in if ok then all_succeed lib l' r else None
  end.
(** a writer and a parser of XML that fit together *)
Definition xml_libraries {L E} (lib : L -> wcall -> L * bool) (free : L -> L * bool) (contents : L -> string) (l0 : L)
    (expat : E -> string -> bool -> E * list event * bool) (e0 : E) : Prop :=
  forall x l1 l2, writable x -> all_succeed lib l0 (WSetup :: calls_of x) = Some l1 -> free l1 = (l2, true) ->
    parses expat e0 (contents l2) (events_of x).
(** the bounds element of a file with bounds *)
Definition bounds_element (e : xml) (b : bounds) : Prop :=
  exists a, e = Elem "bounds" a [] /\ corners_described a (bottom_left b, top_right b).
Definition bounds_listed (b : bounds) : list bounds := if bounds_defined b then [b] else [].
Definition is_object_call (c : callback) : bool := match c with CObj _ => true | _ => false end.
