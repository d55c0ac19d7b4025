(** Handlers, the callback protocol of the readers, and the handlers Osmium ships.
    Models /repo/include/osmium/handler.hpp, input.hpp, the parse() loops of input/xml.hpp and
    input/pbf.hpp, handler/*.hpp and storage/objectstore.hpp.
    A handler is a state and a step function; a callback ends normally (None), by an exception
    or in undefined behaviour.  Objects are values here; sharing of objects between the reader
    and its handlers is in Model/Reuse.v.  The Meta argument of init() is not modelled.
    handler/debug.hpp is in Model/Debug.v, handler/progress.hpp in Model/Progress.v. *)
From Verif Require Import Base.Prelude Model.Osm Model.Store.

(** handler.hpp 81-115: the callbacks; t is NODE, WAY or RELATION.  Of an Area only the
    attributes are kept. *)
Inductive callback :=
| CInit | CBefore (t : otype) | CObj (o : object) | CAfter (t : otype) | CArea (a : attrs) | CFinal.

(** How a callback can fail. *)
Inductive halt := HExn (e : exn) | HUB.

Section Reader.
  Context {S : Type}.
  (** THandler *)
  Variable step : callback -> S -> S * option halt.

  (** input.hpp 216 m_last_object_type, the handler, and the callbacks made so far *)
  Record rstate := mkR { r_last : otype; r_handler : S; r_trace : list callback }.

  Definition call (c : callback) (st : rstate) : rstate * option halt :=
    let (s', r) := step c (r_handler st) in (mkR (r_last st) s' (r_trace st ++ [c]), r).

  Definition andthen (x : rstate * option halt) (f : rstate -> rstate * option halt) : rstate * option halt :=
    match x with (st, None) => f st | (st, Some h) => (st, Some h) end.

  (** input.hpp 110-125: the first switch *)
  Definition call_after (st : rstate) : rstate * option halt :=
    match r_last st with
    | UNKNOWN => call CInit st
    | NODE => call (CAfter NODE) st
    | WAY => call (CAfter WAY) st
    | RELATION => call (CAfter RELATION) st
    | AREA => (st, None)
    end.
  (** input.hpp 126-138: the second switch *)
  Definition call_before (t : otype) (st : rstate) : rstate * option halt :=
    match t with
    | NODE => call (CBefore NODE) st
    | WAY => call (CBefore WAY) st
    | RELATION => call (CBefore RELATION) st
    | _ => (st, None)
    end.
  (** input.hpp 108-141: call_after_and_before_on_handler *)
  Definition call_after_and_before (t : otype) (st : rstate) : rstate * option halt :=
    if negb (otype_eqb t (r_last st)) then
      andthen (call_after st) (fun st1 =>
      andthen (call_before t st1) (fun st2 => (mkR t (r_handler st2) (r_trace st2), None)))
    else (st, None).

  (** input.hpp 143-153: call_node/way/relation_on_handler for a list of objects *)
  Fixpoint call_objects (os : list object) (st : rstate) : rstate * option halt :=
    match os with
    | [] => (st, None)
    | o :: r => andthen (call (CObj o) st) (call_objects r)
    end.

  (** What a reader meets in a file: groups of objects of one type (input/pbf.hpp 163-179: a
      PrimitiveGroup; input/xml.hpp 198-209 and 287-301: one object).  Decoding is in
      Model/Pbf.v and Model/Xml.v. *)
  Definition group := (otype * list object)%type.
  Fixpoint read_groups (gs : list group) (st : rstate) : rstate * option halt :=
    match gs with
    | [] => (st, None)
    | (t, os) :: r =>
        andthen (call_after_and_before t st) (fun st1 =>
        andthen (call_objects os st1) (read_groups r))
    end.

  (** input/xml.hpp 79-110 and input/pbf.hpp 88-150: parse().  [tail]: the reader finds the end
      of the file after the groups (None) or throws an exception there. *)
  Definition parse (gs : list group) (tail : option exn) (s : S) : rstate * option halt :=
    let body :=
      andthen (read_groups gs (mkR UNKNOWN s [])) (fun st =>
        match tail with
        | None => call_after_and_before UNKNOWN st
        | Some e => (st, Some (HExn e))
        end) in
    match body with
    | (st, Some (HExn EStopReading)) => call CFinal st
    | (st, Some h) => (st, Some h)
    | (st, None) => call CFinal st
    end.
End Reader.
Arguments rstate S : clear implicits.

(** handler.hpp 202-270: Sequence; W is all the state the two handlers can reach *)
Definition sequence {W} (h1 h2 : callback -> W -> W * option halt) (c : callback) (w : W) : W * option halt :=
  match h1 c w with
  | (w1, Some e) => (w1, Some e)
  | (w1, None) => h2 c w1
  end.

(** Handlers that call another handler: the body of each callback is a list of writes to the own
    state T and calls of the next handler, executed in order until a call fails. *)
Inductive act (T : Type) := ACall (c : callback) | APut (t : T) | AUB.
Arguments ACall {T}. Arguments APut {T}. Arguments AUB {T}.
Section Stacked.
  Context {T S : Type}.
  Variable next : callback -> S -> S * option halt.
  Fixpoint exec (l : list (act T)) (ts : T * S) : (T * S) * option halt :=
    match l with
    | [] => (ts, None)
    | ACall c :: r =>
        let (s', x) := next c (snd ts) in
        match x with None => exec r (fst ts, s') | Some h => ((fst ts, s'), Some h) end
    | APut t :: r => exec r (t, snd ts)
    | AUB :: _ => (ts, Some HUB)
    end.
  Definition stacked (prog : callback -> T -> list (act T)) (c : callback) (ts : T * S) : (T * S) * option halt :=
    exec (prog c (fst ts)) ts.
End Stacked.

(** handler.hpp 124-196: Forward *)
Definition forward_prog (c : callback) (_ : unit) : list (act unit) := [ACall c].

(** osm/object.hpp: endtime(time_t) on a node, way or relation *)
Definition attrs_with_endtime (a : attrs) (e : Z) : attrs :=
  mkAttrs (o_id a) (o_version a) (o_changeset a) (o_timestamp a) e (o_uid a) (o_user a) (o_visible a) (o_tags a).
Definition with_endtime (o : object) (e : Z) : object :=
  match o with
  | ONode n => ONode (mkNode (attrs_with_endtime (n_attrs n) e) (n_pos n))
  | OWay w => OWay (mkWay (attrs_with_endtime (w_attrs w) e) (w_nodes w))
  | ORel r => ORel (mkRelation (attrs_with_endtime (r_attrs r) e) (r_members r))
  end.
Definition obj_timestamp (o : object) : Z := o_timestamp (obj_attrs o).
Definition obj_endtime (o : object) : Z := o_endtime (obj_attrs o).

(** handler/endtime.hpp 127-129: m_last_node, m_last_way, m_last_relation *)
Record lasts := mkLasts { l_node : option object; l_way : option object; l_rel : option object }.
Definition lasts_new : lasts := mkLasts None None None.
Definition l_get (t : otype) (l : lasts) : option object :=
  match t with NODE => l_node l | WAY => l_way l | RELATION => l_rel l | _ => None end.
Definition l_put (t : otype) (o : option object) (l : lasts) : lasts :=
  match t with
  | NODE => mkLasts o (l_way l) (l_rel l)
  | WAY => mkLasts (l_node l) o (l_rel l)
  | RELATION => mkLasts (l_node l) (l_way l) o
  | _ => l
  end.
(** handler/endtime.hpp 36-131: the three times repeated node/way/relation and after_ methods
    are written once, indexed by the type.  area() is inherited from Base and does nothing. *)
Definition endtime_prog (c : callback) (l : lasts) : list (act lasts) :=
  match c with
  | CObj o =>
      let t := obj_type o in
      match l_get t l with
      | Some la =>
          let la' := if obj_id o =? obj_id la then with_endtime la (obj_timestamp o) else la in
          [APut (l_put t (Some la') l); ACall (CObj la')]
      | None => []
      end ++ [APut (l_put t (Some o) l)]
  | CAfter t =>
      match l_get t l with
      | Some la => [ACall (CObj la); APut (l_put t None l)]
      | None => []
      end ++ [ACall (CAfter t)]
  | CArea _ => []
  | _ => [ACall c]
  end.

(** handler/range_from_history.hpp 49-65 *)
Definition in_range_test (from to : Z) (o : object) : bool :=
  ((obj_endtime o =? 0) || (obj_endtime o >=? from)) && (obj_timestamp o <=? to).
Definition range_prog (from to : Z) (c : callback) (_ : unit) : list (act unit) :=
  match c with
  | CObj o => if in_range_test from to o then [ACall (CObj o)] else []
  | _ => [ACall c]
  end.

(** handler/find_bbox.hpp 32-57 *)
Definition find_bbox (c : callback) (b : bounds) : bounds * option halt :=
  match c with
  | CObj (ONode n) => (bounds_extend b (n_pos n), None)
  | CAfter NODE => (b, Some (HExn EStopReading))
  | _ => (b, None)
  end.

(** handler/coordinates_for_ways.hpp 39-84, over two stores given by their set() and operator[].
    The step returns the object as the handler leaves it (a way gets its positions). *)
Section Coordinates.
  Context {P N : Type}.
  Variable pset : Z -> position -> P -> outcome P.
  Variable pget : Z -> P -> outcome position.
  Variable nset : Z -> position -> N -> outcome N.
  Variable nget : Z -> N -> outcome position.
  (** -id is undefined for INT64_MIN *)
  Definition neg64 (id : Z) : outcome Z := if id =? int64_min then UB else Ok (- id).
  (** 52-59: node *)
  Definition cfw_node (n : node) (st : P * N) : outcome (P * N) :=
    let id := o_id (n_attrs n) in
    if id >=? 0 then let! p := pset id (n_pos n) (fst st) in Ok (p, snd st)
    else let! i := neg64 id in let! q := nset i (n_pos n) (snd st) in Ok (fst st, q).
  (** 61-63: get_node_pos *)
  Definition cfw_pos (id : Z) (st : P * N) : outcome position :=
    if id >=? 0 then pget id (fst st) else let! i := neg64 id in nget i (snd st).
  (** 69-74: way *)
  Fixpoint cfw_nodes (ns : list way_node) (st : P * N) : outcome (list way_node) :=
    match ns with
    | [] => Ok []
    | n :: r => let! p := cfw_pos (wn_ref n) st in let! r' := cfw_nodes r st in Ok (mkWN (wn_ref n) p :: r')
    end.
  Definition cfw_step (o : object) (st : P * N) : outcome (object * (P * N)) :=
    match o with
    | ONode n => let! st' := cfw_node n st in Ok (o, st')
    | OWay w => let! ns := cfw_nodes (w_nodes w) st in Ok (OWay (mkWay (w_attrs w) ns), st)
    | ORel _ => Ok (o, st)
    end.
  Fixpoint cfw_run (os : list object) (st : P * N) : outcome (list object * (P * N)) :=
    match os with
    | [] => Ok ([], st)
    | o :: r => let! x := cfw_step o st in let! y := cfw_run r (snd x) in Ok (fst x :: fst y, snd y)
    end.
End Coordinates.

(** osm/node.hpp 98-100 etc.: operator< on shared pointers compares the objects *)
Definition obj_less (a b : object) : outcome bool :=
  obj_lt (o_id (obj_attrs a)) (o_version (obj_attrs a)) (o_id (obj_attrs b)) (o_version (obj_attrs b)).

(** storage/objectstore.hpp 154-160: std::set of shared pointers, as the list in iteration order.
    Insertion into the tree is modelled as insertion into the sorted list, which is the same
    whenever operator< is a strict weak order on the contents (see C06). *)
Definition oset := list object.
Fixpoint oset_insert (o : object) (s : oset) : outcome oset :=
  match s with
  | [] => Ok [o]
  | x :: r =>
      let! a := obj_less o x in
      if a then Ok (o :: s) else
      let! b := obj_less x o in
      if b then let! r' := oset_insert o r in Ok (x :: r') else Ok s
  end.
Record ostore := mkOS { os_nodes : oset; os_ways : oset; os_rels : oset }.
Definition ostore_new : ostore := mkOS [] [] [].
(** storage/objectstore.hpp 62-78: node, way, relation *)
Definition ostore_add (o : object) (s : ostore) : outcome ostore :=
  match o with
  | ONode _ => let! x := oset_insert o (os_nodes s) in Ok (mkOS x (os_ways s) (os_rels s))
  | OWay _ => let! x := oset_insert o (os_ways s) in Ok (mkOS (os_nodes s) x (os_rels s))
  | ORel _ => let! x := oset_insert o (os_rels s) in Ok (mkOS (os_nodes s) (os_ways s) x)
  end.
Fixpoint ostore_add_all (l : list object) (s : ostore) : outcome ostore :=
  match l with [] => Ok s | o :: r => let! s' := ostore_add o s in ostore_add_all r s' end.
(** storage/objectstore.hpp 124-150: feed_to, the calls and clearings in order *)
Definition feed_prog (clear : bool) (s : ostore) : list (act ostore) :=
  [ACall CInit; ACall (CBefore NODE)] ++ map (fun o => ACall (CObj o)) (os_nodes s) ++ [ACall (CAfter NODE)] ++
  (if clear then [APut (mkOS [] (os_ways s) (os_rels s))] else []) ++
  [ACall (CBefore WAY)] ++ map (fun o => ACall (CObj o)) (os_ways s) ++ [ACall (CAfter WAY)] ++
  (if clear then [APut (mkOS [] [] (os_rels s))] else []) ++
  [ACall (CBefore RELATION)] ++ map (fun o => ACall (CObj o)) (os_rels s) ++ [ACall (CAfter RELATION)] ++
  (if clear then [APut (mkOS [] [] [])] else []) ++
  [ACall CFinal].

(** storage/objectstore.hpp 240-249: the three iterators (as what is left between iterator and
    end) and the store *)
Record apply_state := mkAS { as_store : ostore; as_left : ostore }.
Definition apply_new (s : ostore) : apply_state := mkAS s s.
Definition os_get (t : otype) (s : ostore) : oset :=
  match t with NODE => os_nodes s | WAY => os_ways s | RELATION => os_rels s | _ => [] end.
Definition os_put (t : otype) (x : oset) (s : ostore) : ostore :=
  match t with
  | NODE => mkOS x (os_ways s) (os_rels s)
  | WAY => mkOS (os_nodes s) x (os_rels s)
  | RELATION => mkOS (os_nodes s) (os_ways s) x
  | _ => s
  end.
(** 194-196, 209-211, 224-226: hand out what the iterator points to while it is less than the
    object of the stream (the iterator moves on before the call), then the object *)
Fixpoint apply_less (st : apply_state) (t : otype) (left : oset) (o : object) : list (act apply_state) :=
  match left with
  | [] => [ACall (CObj o)]
  | x :: r =>
      match obj_less x o with
      | Ok true => APut (mkAS (as_store st) (os_put t r (as_left st))) :: ACall (CObj x) :: apply_less st t r o
      | Ok false => [ACall (CObj o)]
      | _ => [AUB]
      end
  end.
(** 202-204, 217-219, 232-234: emit the rest *)
Fixpoint apply_rest (st : apply_state) (t : otype) (left : oset) : list (act apply_state) :=
  match left with
  | [] => []
  | x :: r => APut (mkAS (as_store st) (os_put t r (as_left st))) :: ACall (CObj x) :: apply_rest st t r
  end.
(** storage/objectstore.hpp 189-236 *)
Definition apply_prog (c : callback) (st : apply_state) : list (act apply_state) :=
  match c with
  | CObj o => apply_less st (obj_type o) (os_get (obj_type o) (as_left st)) o
  | CAfter t => apply_rest st t (os_get t (as_left st)) ++
      [ACall (CAfter t); APut (mkAS (os_put t [] (as_store st)) (os_put t [] (as_left st)))]
  | _ => [ACall c]
  end.
