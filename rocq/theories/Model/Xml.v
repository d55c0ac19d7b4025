(** OSM XML files: input/xml.hpp and output/xml.hpp.
    The libraries are parameters: expat turns the bytes it is given into start and end events
    of elements, libxml2 takes calls and turns them into bytes on the file descriptor.
    Simplifications: white space, comments and character data between the elements have no
    effect on the reader (no handler is set for them) and are not events; every object element
    starts from a new object (the reuse of objects is in Model/Reuse.v); an exception thrown in
    a callback passes through expat; the Meta object has no flag for multiple versions; memory
    is never exhausted (XML_ParserCreate, XML_GetBuffer, xmlNewTextWriter succeed). *)
From Verif Require Import Base.Prelude Base.Decimal Model.Osm Model.Float Model.Time Model.Attr Model.OsmFile
  Model.Decfloat Model.Handler.
From Verif Require Model.Pbf.

(** attributes of an element in the order of the document *)
Definition xattrs := list (string * string).
(** the callbacks of expat: XML_StartElementHandler, XML_EndElementHandler *)
Inductive event := EvStart (name : string) (a : xattrs) | EvEnd (name : string).

(* ---- reader ---- *)
(** input/xml.hpp 119-126: context_t *)
Inductive ctx := CtxRoot | CtxTop | CtxNode | CtxWay | CtxRelation | CtxInObject.
(** input/xml.hpp 61-67, 117-135; x_has_node: m_node is not null; x_cur: the object
    m_current_object points to; x_groups: what was handed to the handler: the empty group
    (t, []) stands for call_after_and_before_on_handler(t), (t, [o]) for call_..._on_handler() *)
Record xstate := mkX {
  x_ctx : ctx; x_last : ctx; x_delete : bool; x_has_node : bool; x_cur : object;
  x_meta : Pbf.meta; x_groups : list group }.
Definition x_new : xstate := mkX CtxRoot CtxRoot false false (ONode node_new) Pbf.meta_new [].
Definition x_enter (c : ctx) (st : xstate) : xstate :=
  mkX c (x_last st) (x_delete st) (x_has_node st) (x_cur st) (x_meta st) (x_groups st).
Definition x_set_delete (d : bool) (st : xstate) : xstate :=
  mkX (x_ctx st) (x_last st) d (x_has_node st) (x_cur st) (x_meta st) (x_groups st).
Definition x_set_cur (o : object) (st : xstate) : xstate :=
  mkX (x_ctx st) (x_last st) (x_delete st) (x_has_node st) o (x_meta st) (x_groups st).
Definition x_set_meta (m : Pbf.meta) (st : xstate) : xstate :=
  mkX (x_ctx st) (x_last st) (x_delete st) (x_has_node st) (x_cur st) m (x_groups st).
Definition x_emit (g : group) (st : xstate) : xstate :=
  mkX (x_ctx st) (x_last st) (x_delete st) (x_has_node st) (x_cur st) (x_meta st) (x_groups st ++ [g]).
(** after prepare_node() there is a node *)
Definition x_node_there (st : xstate) : xstate :=
  mkX (x_ctx st) (x_last st) (x_delete st) true (x_cur st) (x_meta st) (x_groups st).
(** input/xml.hpp 230-231, 235-236, 248-249: into an element inside of an object *)
Definition x_child (st : xstate) : xstate :=
  mkX CtxInObject (x_ctx st) (x_delete st) (x_has_node st) (x_cur st) (x_meta st) (x_groups st).

(** input/xml.hpp 150-162: the loop of init_object.  lon and lat go to m_node (p) whatever the
    element is, if there is an m_node; the caller uses p only if the element is a node. *)
Fixpoint init_attrs (has_node : bool) (l : xattrs) (a : attrs) (p : position) : outcome (attrs * position) :=
  match l with
  | [] => Ok (a, p)
  | (k, v) :: r =>
      if String.eqb k "lon" then
        if has_node then let! p' := pos_set_lon p (atof v) in init_attrs has_node r a p'
        else init_attrs has_node r a p
      else if String.eqb k "lat" then
        if has_node then let! p' := pos_set_lat p (atof v) in init_attrs has_node r a p'
        else init_attrs has_node r a p
      else
        let! x := set_attribute k v a in
        match snd x with
        | None => init_attrs has_node r (fst x) p
        | Some e => Throw e
        end
  end.
(** input/xml.hpp 145-149 *)
Definition init_object (delete has_node : bool) (l : xattrs) : outcome (attrs * position) :=
  init_attrs has_node l (if delete then set_visible false attrs_new else attrs_new) undef_pos.

(** input/xml.hpp 117, 177: the Object part of the current object *)
Definition with_attrs (f : attrs -> attrs) (o : object) : object :=
  match o with
  | ONode n => ONode (mkNode (f (n_attrs n)) (n_pos n))
  | OWay w => OWay (mkWay (f (w_attrs w)) (w_nodes w))
  | ORel r => ORel (mkRelation (f (r_attrs r)) (r_members r))
  end.
(** input/xml.hpp 167-176: key and value of a tag element *)
Fixpoint tag_attrs (l : xattrs) (k v : string) : string * string :=
  match l with
  | [] => (k, v)
  | (n, x) :: r =>
      tag_attrs r (if String.eqb n "k" then x else k) (if String.eqb n "v" then x else v)
  end.
(** input/xml.hpp 165-179: check_tag *)
Definition check_tag (name : string) (l : xattrs) (o : object) : object :=
  if String.eqb name "tag" then
    let (k, v) := tag_attrs l "" "" in with_attrs (fun a => set_tags (tl_add (o_tags a) k v) a) o
  else o.
(** input/xml.hpp 238-242: the attributes of an nd element *)
Fixpoint nd_attrs (l : xattrs) (w : way) : outcome way :=
  match l with
  | [] => Ok w
  | (n, x) :: r =>
      if String.eqb n "ref" then let! i := string_to_osm_object_id_t x in nd_attrs r (add_node w i)
      else nd_attrs r w
  end.
(** input/xml.hpp 256: the first character of a C string *)
Definition first_char (s : string) : ascii := match s with String c _ => c | EmptyString => Ascii.zero end.
(** input/xml.hpp 251-262: the attributes of a member element; ref is an uint64_t *)
Fixpoint member_attrs (l : xattrs) (t : ascii) (ref : Z) (role : string) : outcome (ascii * Z * string) :=
  match l with
  | [] => Ok (t, ref, role)
  | (n, x) :: r =>
      if String.eqb n "type" then member_attrs r (first_char x) ref role
      else if String.eqb n "ref" then let! i := string_to_osm_object_id_t x in member_attrs r t (to_u64 i) role
      else if String.eqb n "role" then member_attrs r t ref x
      else member_attrs r t ref role
  end.
(** input/xml.hpp 185-193: the root element *)
Fixpoint root_attrs (l : xattrs) (m : Pbf.meta) : outcome Pbf.meta :=
  match l with
  | [] => Ok m
  | (n, x) :: r =>
      if String.eqb n "version" then if String.eqb x "0.6" then root_attrs r m else Throw ERuntime
      else if String.eqb n "generator" then root_attrs r (Pbf.mkMeta x (Pbf.mt_bounds m))
      else root_attrs r m
  end.
(** input/xml.hpp 213-223: the attributes of a bounds element *)
Fixpoint bounds_attrs (l : xattrs) (mi ma : position) : outcome (position * position) :=
  match l with
  | [] => Ok (mi, ma)
  | (n, x) :: r =>
      if String.eqb n "minlon" then let! p := pos_set_lon mi (atof x) in bounds_attrs r p ma
      else if String.eqb n "minlat" then let! p := pos_set_lat mi (atof x) in bounds_attrs r p ma
      else if String.eqb n "maxlon" then let! p := pos_set_lon ma (atof x) in bounds_attrs r mi p
      else if String.eqb n "maxlat" then let! p := pos_set_lat ma (atof x) in bounds_attrs r mi p
      else bounds_attrs r mi ma
  end.
(** input/xml.hpp 184, 284 *)
Definition is_root_name (name : string) : bool := String.eqb name "osm" || String.eqb name "osmChange".

(** the state after a callback and how it ended *)
Definition xresult : Type := xstate * outcome unit.
Definition x_ok (st : xstate) : xresult := (st, Ok tt).
(** continue with the value of a computation that leaves the state alone, or fail *)
Definition x_try {A} (st : xstate) (r : outcome A) (f : A -> xresult) : xresult :=
  match r with Ok a => f a | Throw e => (st, Throw e) | UB => (st, UB) | AssertFail => (st, AssertFail) end.

(** input/xml.hpp 197-228: an element at the top level *)
Definition start_top (name : string) (l : xattrs) (st : xstate) : xresult :=
  if String.eqb name "node" then
    let st := x_node_there (x_emit (NODE, []) st) in
    x_try st (init_object (x_delete st) true l) (fun ap =>
      x_ok (x_enter CtxNode (x_set_cur (ONode (mkNode (fst ap) (snd ap))) st)))
  else if String.eqb name "way" then
    let st := x_emit (WAY, []) st in
    x_try st (init_object (x_delete st) (x_has_node st) l) (fun ap =>
      x_ok (x_enter CtxWay (x_set_cur (OWay (mkWay (fst ap) [])) st)))
  else if String.eqb name "relation" then
    let st := x_emit (RELATION, []) st in
    x_try st (init_object (x_delete st) (x_has_node st) l) (fun ap =>
      x_ok (x_enter CtxRelation (x_set_cur (ORel (mkRelation (fst ap) [])) st)))
  else if String.eqb name "bounds" then
    x_try st (bounds_attrs l undef_pos undef_pos) (fun mm =>
      let m := x_meta st in
      x_ok (x_set_meta (Pbf.mkMeta (Pbf.mt_generator m)
        (bounds_extend (bounds_extend (Pbf.mt_bounds m) (fst mm)) (snd mm))) st))
  else if String.eqb name "delete" then x_ok (x_set_delete true st)
  else x_ok st.
(** input/xml.hpp 234-246: an element inside of a way *)
Definition start_in_way (name : string) (l : xattrs) (st : xstate) : xresult :=
  let st := x_child st in
  if String.eqb name "nd" then
    match x_cur st with
    | OWay w => x_try st (nd_attrs l w) (fun w' => x_ok (x_set_cur (OWay w') st))
    | _ => (st, UB)
    end
  else x_ok (x_set_cur (check_tag name l (x_cur st)) st).
(** input/xml.hpp 247-270: an element inside of a relation *)
Definition start_in_relation (name : string) (l : xattrs) (st : xstate) : xresult :=
  let st := x_child st in
  if String.eqb name "member" then
    match x_cur st with
    | ORel r =>
        x_try st (member_attrs l "x" 0 "") (fun m =>
          let '(t, ref, role) := m in
          let (ms, e) := add_member (r_members r) t (to_i64 ref) role in
          let st := x_set_cur (ORel (mkRelation (r_attrs r) ms)) st in
          match e with None => x_ok st | Some e => (st, Throw e) end)
    | _ => (st, UB)
    end
  else x_ok (x_set_cur (check_tag name l (x_cur st)) st).
(** input/xml.hpp 181-276: start_element *)
Definition start_element (name : string) (l : xattrs) (st : xstate) : xresult :=
  match x_ctx st with
  | CtxRoot =>
      if is_root_name name then
        x_try st (root_attrs l (x_meta st)) (fun m => x_ok (x_enter CtxTop (x_set_meta m st)))
      else x_ok (x_enter CtxTop st)
  | CtxTop => start_top name l st
  | CtxNode => let st := x_child st in x_ok (x_set_cur (check_tag name l (x_cur st)) st)
  | CtxWay => start_in_way name l st
  | CtxRelation => start_in_relation name l st
  | CtxInObject => (st, AssertFail)
  end.
(** input/xml.hpp 278-311: end_element *)
Definition end_element (name : string) (st : xstate) : xresult :=
  match x_ctx st with
  | CtxRoot => (st, AssertFail)
  | CtxTop =>
      if is_root_name name then x_ok (x_enter CtxRoot st)
      else if String.eqb name "delete" then x_ok (x_set_delete false st)
      else x_ok st
  | CtxNode | CtxWay | CtxRelation =>
      x_ok (x_enter CtxTop (x_emit (obj_type (x_cur st), [x_cur st]) st))
  | CtxInObject => x_ok (x_enter (x_last st) st)
  end.
(** input/xml.hpp 137-143: the callbacks; after an exception there are no further ones *)
Definition x_event (e : event) (st : xstate) : xresult :=
  match e with EvStart n a => start_element n a st | EvEnd n => end_element n st end.
Fixpoint x_events (es : list event) (st : xstate) : xresult :=
  match es with
  | [] => x_ok st
  | e :: r => match x_event e st with (st', Ok _) => x_events r st' | x => x end
  end.

Section Expat.
  Context {E : Type}.
  (** XML_ParseBuffer(parser, data, isFinal): the callbacks it makes and whether its result is
      different from XML_STATUS_ERROR *)
  Variable expat : E -> string -> bool -> E * list event * bool.
  (** input/xml.hpp 91-102: one buffer *)
  Definition parse_buffer (e : E) (buf : string) (done : bool) (st : xstate) : E * xresult :=
    let '(e', evs, ok) := expat e buf done in
    match x_events evs st with
    | (st', Ok _) => (e', (st', if ok then Ok tt else Throw ERuntime))
    | x => (e', x)
    end.
  (** input/xml.hpp 81-103: the loop over the results of ::read; None is an error, the end of the
      file (an empty result) is reached after the listed results at the latest *)
  Fixpoint parse_loop (reads : list (option string)) (e : E) (st : xstate) : xresult :=
    match reads with
    | [] | Some EmptyString :: _ => snd (parse_buffer e "" true st)
    | None :: _ => (st, Throw ERuntime)
    | Some buf :: r =>
        match parse_buffer e buf false st with
        | (e', (st', Ok _)) => parse_loop r e' st'
        | (_, x) => x
        end
    end.
  (** input/xml.hpp 69-111: parse() with a handler that does not throw; the calls of the handler
      are those of [Handler.parse] for the groups of the result *)
  Definition read_xml (e : E) (reads : list (option string)) : xresult := parse_loop reads e x_new.
End Expat.

(* ---- writer ---- *)
(** calls of the text writer of libxml2: the setup calls (indentation and StartDocument),
    StartElement, WriteAttribute and WriteFormatAttribute (with the formatted value),
    EndElement *)
Inductive wcall := WSetup | WStart (name : string) | WAttr (k v : string) | WEnd.

(** output/xml.hpp 171-193: write_meta; "%d" of an unsigned version prints it as int *)
Definition write_meta (ft : ftype) (a : attrs) : outcome (list wcall) :=
  let! ts := (if o_timestamp a =? 0 then Ok [] else let! s := to_iso (o_timestamp a) in Ok [WAttr "timestamp" s]) in
  Ok ([WAttr "id" (print_Z (o_id a))] ++
      (if o_version a =? 0 then [] else [WAttr "version" (print_Z (to_i32 (o_version a)))]) ++
      ts ++
      (if o_uid a >? 0 then [WAttr "uid" (print_Z (o_uid a)); WAttr "user" (o_user a)] else []) ++
      (if o_changeset a =? 0 then [] else [WAttr "changeset" (print_Z (o_changeset a))]) ++
      (if ft_multiple ft && negb (Pbf.ft_eqb ft FtChange)
       then [WAttr "visible" (if o_visible a then "true" else "false")%string] else [])).
(** output/xml.hpp 195-203: write_tags *)
Definition write_tags (ts : tag_list) : list wcall :=
  flat_map (fun t => [WStart "tag"; WAttr "k" (tkey t); WAttr "v" (tvalue t); WEnd]) ts.
(** output/xml.hpp 205-227: open_close_op_tag; the operation '\0' is None *)
Definition op_element (op : ascii) : list wcall :=
  if Ascii.eqb op "c" then [WStart "create"]
  else if Ascii.eqb op "m" then [WStart "modify"]
  else if Ascii.eqb op "d" then [WStart "delete"] else [].
Definition op_eqb (a b : option ascii) : bool :=
  match a, b with None, None => true | Some x, Some y => Ascii.eqb x y | _, _ => false end.
Definition open_close_op_tag (op last : option ascii) : list wcall :=
  if op_eqb op last then []
  else (match last with Some _ => [WEnd] | None => [] end) ++
       (match op with Some o => op_element o | None => [] end).
(** output/xml.hpp 96, 114, 134: the operation for an object *)
Definition op_of (a : attrs) : ascii :=
  if o_visible a then if o_version a =? 1 then "c"%char else "m"%char else "d"%char.
(** output/xml.hpp 102-105 *)
Definition position_calls (p : position) : list wcall :=
  if pos_defined p then [WAttr "lat" (printf_f 7 (pos_lat p)); WAttr "lon" (printf_f 7 (pos_lon p))] else [].
(** output/xml.hpp 94-154: node, way, relation after the operation element *)
Definition write_object (ft : ftype) (o : object) : outcome (list wcall) :=
  match o with
  | ONode n =>
      let! m := write_meta ft (n_attrs n) in
      Ok ([WStart "node"] ++ m ++ position_calls (n_pos n) ++ write_tags (o_tags (n_attrs n)) ++ [WEnd])
  | OWay w =>
      let! m := write_meta ft (w_attrs w) in
      Ok ([WStart "way"] ++ m ++
          flat_map (fun n => [WStart "nd"; WAttr "ref" (print_Z (wn_ref n)); WEnd]) (w_nodes w) ++
          write_tags (o_tags (w_attrs w)) ++ [WEnd])
  | ORel r =>
      let! m := write_meta ft (r_attrs r) in
      Ok ([WStart "relation"] ++ m ++
          flat_map (fun x => [WStart "member"; WAttr "type" (type_name (m_type x)); WAttr "ref" (print_Z (m_ref x));
                              WAttr "role" (m_role x); WEnd]) (r_members r) ++
          write_tags (o_tags (r_attrs r)) ++ [WEnd])
  end.
(** output/xml.hpp 70-92: init *)
Definition xml_init (ft : ftype) (generator : string) (b : bounds) : list wcall :=
  [WSetup; WStart (if Pbf.ft_eqb ft FtChange then "osmChange" else "osm")%string;
   WAttr "version" "0.6"; WAttr "generator" generator] ++
  (if bounds_defined b then
     [WStart "bounds";
      WAttr "minlon" (printf_f 7 (pos_lon (bottom_left b))); WAttr "minlat" (printf_f 7 (pos_lat (bottom_left b)));
      WAttr "maxlon" (printf_f 7 (pos_lon (top_right b))); WAttr "maxlat" (printf_f 7 (pos_lat (top_right b)));
      WEnd]
   else []).
(** output/xml.hpp 95-97, 113-115, 133-135: the objects one after the other, with m_last_op *)
Fixpoint xml_objects (ft : ftype) (last : option ascii) (os : list object) : outcome (list wcall * option ascii) :=
  match os with
  | [] => Ok ([], last)
  | o :: r =>
      let op := if Pbf.ft_eqb ft FtChange then Some (op_of (obj_attrs o)) else last in
      let! c := write_object ft o in
      let! x := xml_objects ft op r in
      Ok (open_close_op_tag op last ++ c ++ fst x, snd x)
  end.
(** init, the objects and final (output/xml.hpp 156-163) *)
Definition xml_calls (ft : ftype) (generator : string) (b : bounds) (os : list object) : outcome (list wcall) :=
  let! x := xml_objects ft None os in
  Ok (xml_init ft generator b ++ fst x ++
      (if Pbf.ft_eqb ft FtChange then open_close_op_tag None (snd x) else []) ++ [WEnd]).

Section Libxml.
  Context {L : Type}.
  (** a call of libxml2: the new state and whether the result is not negative *)
  Variable lib : L -> wcall -> L * bool.
  (** xmlFreeTextWriter: writes what is still buffered.  Whether that worked (the second
      component) is not reported to the caller: the function returns void. *)
  Variable lib_free : L -> L * bool.
  (** output/xml.hpp 41-50: XMLWriteError, check_for_error *)
  Definition EXmlWrite : exn := EOther 20.
  Fixpoint exec_calls (l : L) (cs : list wcall) : L * outcome unit :=
    match cs with
    | [] => (l, Ok tt)
    | c :: r => let (l', ok) := lib l c in if ok then exec_calls l' r else (l', Throw EXmlWrite)
    end.
  (** output/xml.hpp 70-163: a whole file; what the caller sees, and (for the specification) whether the buffer got
      written *)
  Definition write_xml (l : L) (ft : ftype) (generator : string) (b : bounds) (os : list object)
    : L * bool * outcome unit :=
    match xml_calls ft generator b os with
    | Ok cs =>
        match exec_calls l cs with
        | (l', Ok _) => let (l2, fl) := lib_free l' in (l2, fl, Ok tt)
        | (l', e) => (l', false, e)
        end
    | Throw e => (l, false, Throw e)
    | UB => (l, false, UB)
    | AssertFail => (l, false, AssertFail)
    end.
End Libxml.
