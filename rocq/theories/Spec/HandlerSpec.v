(** Specifications for handlers: what a handler gets to see. *)
From Verif Require Import Base.Prelude Model.Osm Model.Handler Spec.OsmSpec.

(** giving a handler a list of callbacks, one after the other, until one fails: the callbacks
    made, the final state and the failure *)
Fixpoint feed {S} (step : callback -> S -> S * option halt) (cs : list callback) (s : S)
  : list callback * S * option halt :=
  match cs with
  | [] => ([], s, None)
  | c :: r =>
      match step c s with
      | (s', None) => let '(m, s'', h) := feed step r s' in (c :: m, s'', h)
      | (s', Some h) => ([c], s', Some h)
      end
  end.
(** the handler takes all callbacks without failing *)
Definition takes {S} (step : callback -> S -> S * option halt) (cs : list callback) (s s' : S) : Prop :=
  feed step cs s = (cs, s', None).

(** the callbacks that returned, of those [feed] has made *)
Definition returned (made : list callback) (h : option halt) : list callback :=
  match h with None => made | Some _ => removelast made end.
(** what is left of the stored objects of a type when they are cleared after the end of the type was reported *)
Definition left_of (t : otype) (l : list object) (cs : list callback) : list object :=
  if existsb (fun c => match c with CAfter u => otype_eqb u t | _ => false end) cs then [] else l.

Definition object_type (t : otype) : Prop := t = NODE \/ t = WAY \/ t = RELATION.
Definition well_typed (g : otype * list object) : Prop :=
  object_type (fst g) /\ forall o, In o (snd g) -> obj_type o = fst g.
(** a run of objects of one type inside its brackets *)
Definition bracket (r : otype * list object) : list callback :=
  CBefore (fst r) :: map CObj (snd r) ++ [CAfter (fst r)].
(** neighbouring groups of equal type joined *)
Fixpoint join (gs : list (otype * list object)) : list (otype * list object) :=
  match gs with
  | [] => []
  | (t, os) :: r =>
      match join r with
      | (t', os') :: r' => if otype_eqb t t' then (t, os ++ os') :: r' else (t, os) :: (t', os') :: r'
      | [] => [(t, os)]
      end
  end.
Fixpoint neighbours_differ (ts : list otype) : Prop :=
  match ts with
  | a :: ((b :: _) as r) => a <> b /\ neighbours_differ r
  | _ => True
  end.
(** everything a handler sees of a file before final() *)
Definition protocol (gs : list (otype * list object)) : list callback :=
  CInit :: flat_map bracket (join gs).
(** the type whose bracket is open after some callbacks *)
Definition open_step (cur : option otype) (c : callback) : option otype :=
  match c with CBefore t => Some t | CAfter _ => None | _ => cur end.
Definition open_type (cs : list callback) : option otype := fold_left open_step cs None.
Definition observe {S} (x : rstate S * option halt) : list callback * S * option halt :=
  (r_trace (fst x), r_handler (fst x), snd x).

(** a handler that only remembers its callbacks *)
Definition recorder (c : callback) (l : list callback) : list callback * option halt := (l ++ [c], None).
(** using one of two handlers with independent states *)
Definition on_fst {A B} (h : callback -> A -> A * option halt) (c : callback) (s : A * B) : (A * B) * option halt :=
  let (a, r) := h c (fst s) in ((a, snd s), r).
Definition on_snd {A B} (h : callback -> B -> B * option halt) (c : callback) (s : A * B) : (A * B) * option halt :=
  let (b, r) := h c (snd s) in ((fst s, b), r).
(** two handlers writing to one log which of them was called *)
Definition tagged_recorder (tag : nat) (c : callback) (l : list (nat * callback))
  : list (nat * callback) * option halt := (l ++ [(tag, c)], None).

(** every version ends when the directly following version of the same object starts *)
Fixpoint ends (os : list object) : list object :=
  match os with
  | [] => []
  | o :: r =>
      match r with
      | o2 :: _ => if obj_id o2 =? obj_id o then with_endtime o (obj_timestamp o2) else o
      | [] => o
      end :: ends r
  end.
Definition obj_version (o : object) : Z := o_version (obj_attrs o).
(** sorted by id, then version; no (id, version) twice *)
Definition hist_lt (a b : object) : Prop :=
  Z.abs (obj_id a) < Z.abs (obj_id b) \/ (obj_id a = obj_id b /\ obj_version a < obj_version b).
Definition history (os : list object) : Prop := StronglySorted hist_lt os.
(** time goes on from version to version *)
Definition chronological (os : list object) : Prop :=
  (forall o, In o os -> 0 < obj_timestamp o) /\
  forall a b, In a os -> In b os -> obj_id a = obj_id b -> obj_version a < obj_version b ->
              obj_timestamp a <= obj_timestamp b.

(** the version lives at some moment of the range *)
Definition intersects (from to : Z) (o : object) : Prop :=
  exists t, from <= t <= to /\ obj_timestamp o <= t /\ (obj_endtime o = 0 \/ t <= obj_endtime o).

(** keys of stored objects *)
Definition okey (o : object) : Z * Z := (obj_id o, obj_version o).
Definition keys_ok (l : list object) : Prop :=
  no_opposite (map obj_id l) /\ ~ In int64_min (map obj_id l).
Definition ofilter (t : otype) (l : list object) : list object :=
  filter (fun o => otype_eqb (obj_type o) t) l.
Definition key_lt (a b : object) : Prop := obj_lt_true (okey a) (okey b).
(** [x] holds the first object of every key occurring in [l], in ascending order *)
Definition firsts_sorted (l x : list object) : Prop :=
  StronglySorted key_lt x /\
  (forall o, In o x <-> is_first (fun p => okey p = okey o) l o).
(** sorted, several objects with the same key allowed *)
Definition key_sorted (l : list object) : Prop := StronglySorted (fun a b => ~ key_lt b a) l.
Definition stored_sorted (l : list object) : Prop := StronglySorted key_lt l.

(** the position of the last node with this id in the stream so far *)
Definition node_pos1 (id : Z) (cur : option position) (o : object) : option position :=
  match o with ONode n => if o_id (n_attrs n) =? id then Some (n_pos n) else cur | _ => cur end.
Definition last_pos (os : list object) (id : Z) : option position := fold_left (node_pos1 id) os None.
Definition locate (seen : list object) (dflt : position) (o : object) : object :=
  match o with
  | OWay w => OWay (mkWay (w_attrs w)
      (map (fun n => mkWN (wn_ref n) (match last_pos seen (wn_ref n) with Some p => p | None => dflt end)) (w_nodes w)))
  | _ => o
  end.
(** every object of the stream, located by what came before it *)
Fixpoint located_stream (seen os : list object) (dflt : position) : list object :=
  match os with
  | [] => []
  | o :: r => locate seen dflt o :: located_stream (seen ++ [o]) r dflt
  end.
(** ids a stream uses: of nodes and of way nodes *)
Definition used_ids (o : object) : list Z :=
  match o with ONode n => [o_id (n_attrs n)] | OWay w => map wn_ref (w_nodes w) | ORel _ => [] end.
(** a store for positions works for the ids in [dom] *)
Definition store_works {St} (set : Z -> position -> St -> outcome St) (get : Z -> St -> outcome position)
  (s0 : St) (dflt : position) (dom : Z -> Prop) : Prop :=
  exists R : list (Z * position) -> St -> Prop,
    R [] s0 /\
    (forall h s id p, R h s -> dom id -> exists s', set id p s = Ok s' /\ R (h ++ [(id, p)]) s') /\
    (forall h s id, R h s -> dom id ->
       get id s = Ok (match find (fun x => fst x =? id) (rev h) with Some x => snd x | None => dflt end)).

Definition node_positions (os : list object) : list position :=
  flat_map (fun o => match o with ONode n => [n_pos n] | _ => [] end) os.

(** the version of its object that is current at an instant *)
Definition current_at (os : list object) (t : Z) (o : object) : Prop :=
  obj_timestamp o <= t /\ forall x, In x os -> obj_id x = obj_id o -> obj_version o < obj_version x -> t < obj_timestamp x.
(** the ids a pair of stores (for ids and negated ids) works for *)
Definition id_ok (domp domn : Z -> Prop) (id : Z) : Prop :=
  (0 <= id -> domp id) /\ (id < 0 -> id <> int64_min /\ domn (- id)).
(** no two ids of one type differ only in sign, none is the smallest *)
Definition types_ok (l : list object) : Prop :=
  keys_ok (ofilter NODE l) /\ keys_ok (ofilter WAY l) /\ keys_ok (ofilter RELATION l).
(** what a merge of stored and streamed objects needs and gives *)
Definition run_ok (st : ostore) (r : otype * list object) : Prop :=
  well_typed r /\ keys_ok (os_get (fst r) st ++ snd r) /\ stored_sorted (os_get (fst r) st) /\ key_sorted (snd r).
Definition merge_of (st : ostore) (r out : otype * list object) : Prop :=
  fst out = fst r /\ Permutation (snd out) (os_get (fst r) st ++ snd r) /\ key_sorted (snd out).
(** a file that ends in an error *)
Definition protocol_open (gs : list (otype * list object)) : list callback := removelast (protocol gs).
