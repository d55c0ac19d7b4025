(** Specifications for the multipolygon builder: chains of ways, nesting of rings, dangling
    ends, tags.  Independent of the algorithms of Model/Builder.v. *)
From Coq Require Import Sorting.Permutation.
From Verif Require Import Base.Prelude Model.Osm Model.Handler Model.Assembler Model.Builder.

(* ---- rings ---- *)
(** a way and its orientation; the nodes in the order they are passed *)
Definition step := (bway * bool)%type.
Definition trace (s : step) : list way_node := if snd s then rev (bnodes (fst s)) else bnodes (fst s).
Definition starts_at (l : list way_node) (z : Z) : Prop := exists x r, l = x :: r /\ wn_ref x = z.
Definition ends_at (l : list way_node) (z : Z) : Prop := exists r x, l = r ++ [x] /\ wn_ref x = z.
(** each way starts at the node where the one before ends *)
Inductive chain : Z -> list step -> Z -> Prop :=
| chain_nil a : chain a [] a
| chain_cons a b c s l : starts_at (trace s) a -> ends_at (trace s) b -> chain b l c -> chain a (s :: l) c.
Definition closed_chain (l : list step) : Prop := l <> [] /\ exists a, chain a l a.
(** a path gives ways by their numbers; [spells W p l]: these are the ways of [p] in [W] *)
Definition spells (W : list bway) (p : list (nat * bool)) (l : list step) : Prop :=
  Forall2 (fun a s => nth_error W (fst a) = Some (fst s) /\ snd a = snd s) p l.
(** ring [r] is made of the ways of [W] *)
Definition ring_of {G} (mkring : list step -> option G) (W : list bway) (r : @ring G) : Prop :=
  exists p l, rev (map fst p) = rg_ways r /\ NoDup (map fst p) /\ spells W p l /\ closed_chain l /\
              mkring l = Some (rg_geom r).

(* ---- the search space ---- *)
(** continuations of a path that is now at node [cur] back to node [first]: they stop at the first
    return, and a way that starts at the current node is not turned around *)
Fixpoint walk (W : list bway) (first cur : Z) (ext : list (nat * bool)) : Prop :=
  match ext with
  | [] => cur = first
  | (i, inv) :: r =>
      cur <> first /\
      exists w, nth_error W i = Some w /\
        if inv then firstnode w <> cur /\ lastnode w = cur /\ walk W first (firstnode w) r
        else firstnode w = cur /\ walk W first (lastnode w) r
  end.
(** the rings through way [i] that avoid the ways in [busy] *)
Definition candidate (W : list bway) (busy : nat -> Prop) (i : nat) (p : list (nat * bool)) : Prop :=
  exists w ext, nth_error W i = Some w /\ p = (i, false) :: ext /\ NoDup (map fst p) /\
                (forall j, In j (map fst p) -> ~ busy j) /\ walk W (firstnode w) (lastnode w) ext.

(* ---- nesting ---- *)
(** [con i j]: ring i contains ring j; every ring may contain itself.  Different rings do not
    contain each other, and containment is transitive. *)
Definition proper_nesting (con : nat -> nat -> bool) : Prop :=
  (forall i j, i <> j -> con i j = true -> con j i = false) /\
  (forall i j k, con i j = true -> con j k = true -> con i k = true).
Definition inside (con : nat -> nat -> bool) (i j : nat) : bool := negb (i =? j)%nat && con i j.
(** number of other rings among 0..n-1 that contain ring j *)
Definition depth (con : nat -> nat -> bool) (n : nat) (j : nat) : nat :=
  List.length (filter (fun i => inside con i j) (seq 0 n)).
Definition direct (con : nat -> nat -> bool) (n : nat) (i j : nat) : Prop :=
  inside con i j = true /\ forall k, (k < n)%nat -> inside con i k = true -> inside con k j = true -> False.

(** containers come before the rings they contain *)
Definition outside_in (con : nat -> nat -> bool) (n : nat) : Prop :=
  forall i j, (i < n)%nat -> (j < n)%nat -> inside con i j = true -> (i < j)%nat.

(* ---- dangling ends ---- *)
Definition way_ends (w : bway) : list Z := [wn_ref (bfront w); wn_ref (bback w)].
(** number of ends of ways at a node *)
Definition ends_count (W : list bway) (z : Z) : nat := count_occ Z.eq_dec (flat_map way_ends W) z.
Definition ref_le (a b : way_node) : Prop := wn_ref a <= wn_ref b.
(** any sort by ref *)
Definition sorts (srt : list way_node -> list way_node) : Prop :=
  forall l, Permutation l (srt l) /\ Sorted.StronglySorted ref_le (srt l).

(** distances that can be compared *)
Definition weak_order (closer : way_node -> way_node -> way_node -> bool) : Prop :=
  forall wn, (forall a, closer wn a a = false) /\
             (forall a b c, closer wn a b = false -> closer wn b c = false -> closer wn a c = false) /\
             (forall a b, closer wn a b = true -> closer wn b a = false).

(* ---- tags ---- *)
Definition ignored (k : string) : Prop :=
  (k = "type" \/ k = "created_by" \/ k = "source" \/ k = "note")%string.
Definition has_tag (ts : tag_list) (k v : string) : Prop := In (mkTag k v) ts.
Definition has_key (ts : tag_list) (k : string) : Prop := exists v, has_tag ts k v.
Definition keys_unique (ts : tag_list) : Prop := NoDup (map tkey ts).
Definition is_ignored (k : string) : bool := existsb (String.eqb k) ["type"; "created_by"; "source"; "note"]%string.
(** the tag is not ignored and its key is not in the list *)
Definition is_new (area : tag_list) (t : tag) : bool :=
  negb (is_ignored (tkey t)) && negb (existsb (fun u => String.eqb (tkey u) (tkey t)) area).

(* ---- the result of a build ---- *)
Definition way_of (b : bway) : way := mkWay (b_attrs b) (bnodes b).
Definition way_or_missing (m : option object) : Prop := match m with None | Some (OWay _) => True | _ => False end.
(** the members that are there and have nodes *)
Fixpoint usable (ms : list (option object)) : list way :=
  match ms with
  | [] => []
  | Some (OWay w) :: r => match w_nodes w with [] => usable r | _ => w :: usable r end
  | _ :: r => usable r
  end.
(** only the first of the ways with the same id, and none with an id in [seen] *)
Fixpoint first_by_id (seen : list Z) (ws : list way) : list way :=
  match ws with
  | [] => []
  | w :: r => if existsb (Z.eqb (o_id (w_attrs w))) seen then first_by_id seen r
              else w :: first_by_id (o_id (w_attrs w) :: seen) r
  end.
Definition latest (ts : Z) (ws : list way) : Z := fold_left (fun t w => Z.max t (o_timestamp (w_attrs w))) ws ts.
(** an area made of a single tagged member way *)
Definition own_area (ws : list way) (a : attrs) : Prop :=
  exists w, In w ws /\ o_id a = 2 * o_id (w_attrs w) /\ o_tags a = o_tags (w_attrs w) /\
            o_timestamp a = o_timestamp (w_attrs w) /\ o_version a = o_version (w_attrs w) /\
            exists k v, has_tag (o_tags a) k v /\ ~ ignored k.
(** the area of the relation *)
Definition relation_area (r : relation) (ws : list way) (a : attrs) : Prop :=
  o_id a = 2 * o_id (r_attrs r) + Z.sgn (o_id (r_attrs r)) /\
  o_timestamp a = latest (o_timestamp (r_attrs r)) ws /\
  o_version a = o_version (r_attrs r) /\ o_uid a = o_uid (r_attrs r) /\ o_user a = o_user (r_attrs r) /\
  exists add, o_tags a = o_tags (r_attrs r) ++ add /\
    forall t, In t add -> ~ ignored (tkey t) /\ ~ has_key (o_tags (r_attrs r)) (tkey t) /\
                          exists w, In w ws /\ In t (o_tags (w_attrs w)).
(** the ways not in a ring *)
Definition unused (ws : list winfo) : list bway := map wi_way (filter (fun w => wi_used w <? 0) ws).
Definition in_ring {G} (rings : list (@ring G)) (i : nat) : Prop := In i (List.concat (map rg_ways rings)).
(** way [w] alone is ring [j] *)
Definition lone_ring {G} (ws : list winfo) (rings : list (@ring G)) (j : nat) (w : bway) : Prop :=
  exists rg i wi, nth_error rings j = Some rg /\ rg_ways rg = [i] /\ nth_error ws i = Some wi /\ wi_way wi = w.
(** way [w] has tags of its own, other than those of the relation, and if container [c] is a single
    way, other than those *)
Definition own_tags {G} (ws : list winfo) (rings : list (@ring G)) (rel : tag_list) (c : nat) (w : bway) : Prop :=
  (exists k v, has_tag (o_tags (b_attrs w)) k v /\ ~ ignored k) /\
  same_tags (o_tags (b_attrs w)) rel = false /\
  forall wc, lone_ring ws rings c wc -> same_tags (o_tags (b_attrs w)) (o_tags (b_attrs wc)) = false.
Definition way_area (w : bway) : attrs := with_id (b_attrs w) (o_id (b_attrs w) * 2).

(* ---- the geometry and tags of the area of the relation ---- *)
(** no ring crosses another: of two rings that contain a third one contains the other *)
Definition uncrossed (con : nat -> nat -> bool) : Prop :=
  forall i i' j, inside con i j = true -> inside con i' j = true ->
    i = i' \/ inside con i i' = true \/ inside con i' i = true.
Definition directly (con : nat -> nat -> bool) (n i j : nat) : bool :=
  inside con i j && negb (existsb (fun k => inside con i k && inside con k j) (seq 0 n)).
(** the outer rings, and the holes of a ring: the rings directly in it at an odd depth *)
Definition outer_rings (con : nat -> nat -> bool) (n : nat) : list nat :=
  filter (fun j => Nat.even (depth con n j)) (seq 0 n).
Definition holes (con : nat -> nat -> bool) (n i : nat) : list nat :=
  filter (fun j => directly con n i j && Nat.odd (depth con n j)) (seq 0 n).
(** the polygon of outer ring [j]: its geometry and the holes left after the check for touching holes *)
Definition shape {G P} (touching : list (option G) -> list (option G)) (polygon : G -> list G -> option P)
  (rings : list (@ring G)) (con : nat -> nat -> bool) (j : nat) : option P :=
  match nth_error rings j with
  | None => None
  | Some r =>
      polygon (rg_geom r)
        (flat_map (fun o => match o with Some g => [g] | None => [] end)
           (match holes con (List.length rings) j with
            | [] => []
            | hs => touching (map (fun i => option_map rg_geom (nth_error rings i)) hs)
            end))
  end.
(** the tags of ways that matter: some, and not the same as those of the relation *)
Definition other_tags (rel t : tag_list) : bool := negb (untagged t) && negb (same_tags rel t).
(** a relation without tags gets the tags of the first outer way with tags; one with tags only gets
    more from a way that is the only outer way *)
Definition area_tags (rel : tag_list) (outer : list (list tag_list)) : tag_list :=
  let more t := rel ++ filter (is_new rel) t in
  if untagged rel then match find (other_tags rel) (List.concat outer) with Some t => more t | None => rel end
  else match outer with [[t]] => if other_tags rel t then more t else rel | _ => rel end.
(** the tags of the ways of ring [j] *)
Definition ring_tags {G} (ws : list winfo) (rings : list (@ring G)) (j : nat) : list tag_list :=
  match nth_error rings j with
  | None => []
  | Some r => map (fun i => match nth_error ws i with Some w => o_tags (b_attrs (wi_way w)) | None => [] end) (rg_ways r)
  end.
