(** The multipolygon builder.  Models /repo/include/osmium/multipolygon/builder.hpp.
    GEOS is outside the model: geometries are an abstract type and every answer of GEOS is an
    oracle, a parameter of the section.  The member innerouter of WayInfo is written but never
    read and is left out, as are warnings, messages on stderr and the ownership of geometries. *)
From Verif Require Import Base.Prelude Base.SMap Model.Osm Model.Handler Model.Assembler.

(** builder.hpp 60-89: the exceptions derived from BuildError *)
Definition EDanglingEnds : exn := EOther 1.
Definition ENoRings : exn := EOther 2.
Definition EInvalidRing : exn := EOther 3.
Definition EInvalidMultiPolygon : exn := EOther 4.
Definition is_build_error (e : exn) : bool :=
  match e with EOther n => (1 <=? n) && (n <=? 4) | _ => false end.

(** A way with at least one node: assemble_ways (651) only lets these in, so that front() and
    back() of its node list are defined. *)
Record bway := mkBW { b_attrs : attrs; b_head : way_node; b_tail : list way_node }.
Definition bnodes (w : bway) : list way_node := b_head w :: b_tail w.
Definition bfront (w : bway) : way_node := b_head w.
Definition bback (w : bway) : way_node := last (b_tail w) (b_head w).
(** builder.hpp 110-116: firstnode, lastnode *)
Definition firstnode (w : bway) : Z := wn_ref (bfront w).
Definition lastnode (w : bway) : Z := wn_ref (bback w).
(** builder.hpp 92-124: WayInfo; ring and way counts are taken to fit into int *)
Record winfo := mkWI { wi_way : bway; wi_used : Z; wi_seq : nat; wi_inv : bool }.
(** builder.hpp 102-108 *)
Definition wi_new (w : bway) : winfo := mkWI w (-1) 0 false.
Definition wi_set (w : winfo) (used : Z) (s : nat) (inv : bool) : winfo := mkWI (wi_way w) used s inv.
Definition wi_use (w : winfo) (used : Z) : winfo := mkWI (wi_way w) used (wi_seq w) (wi_inv w).

(* ---- tags ---- *)
(** builder.hpp 202-208: ignore_tag *)
Definition ignore_tag (k : string) : bool :=
  (String.eqb k "type" || String.eqb k "created_by" || String.eqb k "source" || String.eqb k "note")%string.
(** builder.hpp 221-225 and 267-271: the loop that fills the map *)
Fixpoint fill_map (ts : tag_list) (m : list (string * string)) : list (string * string) :=
  match ts with
  | [] => m
  | t :: r => fill_map r (if ignore_tag (tkey t) then m else map_put (tkey t) (tvalue t) m)
  end.
(** builder.hpp 227-232: the second loop of same_tags; operator[] makes an empty entry *)
Fixpoint drain_map (ts : tag_list) (m : list (string * string)) : option (list (string * string)) :=
  match ts with
  | [] => Some m
  | t :: r =>
      if ignore_tag (tkey t) then drain_map r m
      else let (v, m1) := match map_find (tkey t) m with
                          | Some v => (v, m)
                          | None => (""%string, map_put (tkey t) ""%string m)
                          end in
           if String.eqb v (tvalue t) then drain_map r (map_erase (tkey t) m1) else None
  end.
(** builder.hpp 216-237: same_tags of two objects (the pointers are never null in the callers) *)
Definition same_tags (a b : tag_list) : bool :=
  match drain_map b (fill_map a []) with
  | Some [] => true
  | _ => false
  end.
(** builder.hpp 245-255: untagged *)
Definition untagged (ts : tag_list) : bool := forallb (fun t => ignore_tag (tkey t)) ts.
(** builder.hpp 273-282: the second loop of merge_tags *)
Fixpoint merge_loop (ts : tag_list) (m : list (string * string)) (area : tag_list) (rv : bool) : tag_list * bool :=
  match ts with
  | [] => (area, rv)
  | t :: r =>
      if ignore_tag (tkey t) then merge_loop r m area rv
      else match map_find (tkey t) m with
           | Some v => merge_loop r m area (if String.eqb v (tvalue t) then rv else false)
           | None => merge_loop r (map_put (tkey t) (tvalue t) m) (tl_add area (tkey t) (tvalue t)) rv
           end
  end.
(** builder.hpp 262-285: merge_tags; the tags of the area afterwards and the result *)
Definition merge_tags (area way : tag_list) : tag_list * bool :=
  merge_loop way (fill_map area []) area true.

(* ---- nesting ---- *)
Definition matrix := nat -> nat -> bool.
Definition mset (m : matrix) (i j : nat) (b : bool) : matrix :=
  fun x y => if (x =? i)%nat && (y =? j)%nat then b else m x y.
Definition bset (f : nat -> bool) (i : nat) (b : bool) : nat -> bool := fun x => if (x =? i)%nat then b else f x.
(** builder.hpp 708-713: the inner loop; [con i j] is pp->contains(...) *)
Fixpoint contains_row (con : matrix) (i : nat) (js : list nat) (st : matrix * (nat -> bool)) : matrix * (nat -> bool) :=
  match js with
  | [] => st
  | j :: r =>
      let (c, even) := st in
      contains_row con i r
        (if (i =? j)%nat then st
         else if c j i then st
         else let c' := mset c i j (con i j) in (c', bset even j (xorb (even j) (c' i j))))
  end.
(** builder.hpp 697-714: the first loops; n rings *)
Definition contains_all (con : matrix) (n : nat) : matrix * (nat -> bool) :=
  fold_left (fun st i => contains_row con i (seq 0 n) st) (seq 0 n) (fun _ _ => false, fun _ => true).
(** builder.hpp 725-735: the search for an intermediary *)
Definition intermediary (c : matrix) (i j : nat) (ks : list nat) : bool :=
  existsb (fun k => negb (k =? i)%nat && negb (k =? j)%nat && (c i k && c k j)) ks.
(** builder.hpp 722-738: thinning in place *)
Definition thin_cell (n i : nat) (c : matrix) (j : nat) : matrix :=
  if c i j then (if intermediary c i j (seq 0 n) then mset c i j false else c) else c.
Definition thin (n : nat) (c : matrix) : matrix :=
  fold_left (fun c i => fold_left (thin_cell n i) (seq 0 n) c) (seq 0 n) c.
(** builder.hpp 744-751: which rings are put into inner_rings of ring i *)
Definition inner_of (n : nat) (c : matrix) (even : nat -> bool) (i : nat) : list nat :=
  filter (fun j => c i j && negb (even j)) (seq 0 n).
(** ... and the last write to contained_by of ring j *)
Definition container_of (n : nat) (c : matrix) (even : nat -> bool) (j : nat) : option nat :=
  fold_left (fun r i => if c i j && negb (even j) then Some i else r) (seq 0 n) None.
(** builder.hpp 694-752: determine_inner_outer_rings: inner_rings and contained_by of every ring *)
Definition nesting (con : matrix) (n : nat) : (nat -> list nat) * (nat -> option nat) :=
  let (c, even) := contains_all con n in
  let c' := thin n c in
  (inner_of n c' even, container_of n c' even).

(* ---- dangling ends ---- *)
(** builder.hpp 573-580: ends of all unused ways, and their reset *)
Definition end_nodes (ws : list winfo) : list way_node :=
  flat_map (fun w => if wi_used w <? 0 then [bfront (wi_way w); bback (wi_way w)] else []) ws.
Definition reset (ws : list winfo) : list winfo :=
  map (fun w => if wi_used w <? 0 then wi_use w (-1) else w) ws.
(** builder.hpp 589-595: nodes that are not doubled up *)
Fixpoint single (l : list way_node) : list way_node :=
  match l with
  | [] => []
  | [a] => [a]
  | a :: ((b :: r') as r) => if wn_ref a =? wn_ref b then single r' else a :: single r
  end.

Section Builder.
  (** GEOS: the polygon (and its direction) made by ring_is_complete (457-478) from the ways of a
      ring in order with their orientation, including repair; None: no valid ring *)
  Context {G P : Type}.
  Variable mkring : list (bway * bool) -> option G.

  (** builder.hpp 126-177: RingInfo: the polygon and the ways as indices *)
  Record ring := mkRing { rg_geom : G; rg_ways : list nat }.

  (** builder.hpp 451-456: the ways with used == ringcount, by sequence.  A sequence number outside
      the vector, or an entry that stays null and is dereferenced later (432), is UB. *)
  Fixpoint place (ws : list winfo) (rc : Z) (acc : list (option winfo)) : outcome (list (option winfo)) :=
    match ws with
    | [] => Ok acc
    | w :: r =>
        if wi_used w =? rc then
          if (wi_seq w <? List.length acc)%nat then place r rc (set_nth (wi_seq w) (Some w) acc) else UB
        else place r rc acc
    end.
  Fixpoint all_some (l : list (option winfo)) : outcome (list (bway * bool)) :=
    match l with
    | [] => Ok []
    | Some w :: r => let! x := all_some r in Ok ((wi_way w, wi_inv w) :: x)
    | None :: _ => UB
    end.
  (** builder.hpp 450-479: ring_is_complete *)
  Definition ring_is_complete (ws : list winfo) (rc : Z) (num : nat) : outcome (option ring) :=
    let! acc := place ws rc (repeat None num) in
    let! sorted := all_some acc in
    Ok (match mkring sorted with Some g => Some (mkRing g []) | None => None end).

  Definition push_way (r : ring) (i : nat) : ring := mkRing (rg_geom r) (rg_ways r ++ [i]).
  (** builder.hpp 484-526: complete_ring.  The recursion depth is at most the number of unused
      ways; running out of fuel gives UB and is proved not to happen. *)
  Fixpoint complete_ring (fuel : nat) (ws : list winfo) (first last : Z) (rc : Z) (sq : nat)
    : outcome (list winfo * option ring) :=
    if first =? last then let! r := ring_is_complete ws rc sq in Ok (ws, r)
    else match fuel with
    | O => UB
    | S fuel' =>
        (fix loop (is_ : list nat) (ws : list winfo) : outcome (list winfo * option ring) :=
           match is_ with
           | [] => Ok (ws, None)
           | i :: rest =>
               match nth_error ws i with
               | None => UB
               | Some w =>
                   if 0 <=? wi_used w then loop rest ws
                   else
                     let attempt (inv : bool) (next : Z) :=
                       let! (ws', res) := complete_ring fuel' (set_nth i (wi_set w rc sq inv) ws) first next rc (S sq) in
                       match res with
                       | Some r => Ok (ws', Some (push_way r i))
                       | None =>
                           match nth_error ws' i with
                           | None => UB
                           | Some w' => loop rest (set_nth i (wi_use w' (wi_used w)) ws')
                           end
                       end in
                     if firstnode (wi_way w) =? last then attempt false (lastnode (wi_way w))
                     else if lastnode (wi_way w) =? last then attempt true (firstnode (wi_way w))
                     else loop rest ws
               end
           end) (seq 0 (List.length ws)) ws
    end.

  (** builder.hpp 533-549: make_one_ring: the loop goes on to the first way with used == -1 *)
  Fixpoint first_free (ws : list winfo) (i : nat) : option (nat * winfo) :=
    match ws with
    | [] => None
    | w :: r => if wi_used w =? -1 then Some (i, w) else first_free r (S i)
    end.
  Definition make_one_ring (ws : list winfo) (rings : list ring) : outcome (list winfo * list ring * bool) :=
    match first_free ws 0 with
    | None => Ok (ws, rings, false)
    | Some (i, w) =>
        let n := Z.of_nat (List.length rings) in
        let! (ws', res) := complete_ring (List.length ws) (set_nth i (wi_set w n 0 false) ws)
                             (firstnode (wi_way w)) (lastnode (wi_way w)) n 1 in
        match res with
        | Some r => Ok (ws', rings ++ [push_way r i], true)
        | None =>
            match nth_error ws' i with
            | None => UB
            | Some w' => Ok (set_nth i (wi_use w' (-2)) ws', rings, false)
            end
        end
    end.
  (** builder.hpp 668-669 and 681-682: while (make_one_ring(ways)) {}; at most one ring per way *)
  Fixpoint ring_loop (fuel : nat) (ws : list winfo) (rings : list ring) : outcome (list winfo * list ring) :=
    match fuel with
    | O => UB
    | S f =>
        let! (ws', rings', go) := make_one_ring ws rings in
        if go then ring_loop f ws' rings' else Ok (ws', rings')
    end.

  (** std::sort by ref (585) *)
  Variable srt : list way_node -> list way_node.
  (** distance(wn, a) < distance(wn, b) (616-620) *)
  Variable closer : way_node -> way_node -> way_node -> bool.
  Variable attempt_repair : bool.

  (** builder.hpp 613-624: the closest node: its index *)
  Fixpoint closest (wn : way_node) (l : list way_node) (k : nat) (best : nat * way_node) : nat * way_node :=
    match l with
    | [] => best
    | x :: r => closest wn r (S k) (if closer wn x (snd best) then (k, x) else best)
    end.
  Fixpoint remove_nth {A} (n : nat) (l : list A) : list A :=
    match l, n with
    | [], _ => []
    | _ :: r, O => r
    | x :: r, S m => x :: remove_nth m r
    end.
  (** builder.hpp 626-630: the pseudo way *)
  Definition pseudo_way (a b : way_node) : bway := mkBW attrs_new a [b].
  (** builder.hpp 609-634: the repair loop.  An empty vector after pop_back() makes *begin() UB;
      the fuel is the number of dangling nodes. *)
  Fixpoint repair (fuel : nat) (d : list way_node) : outcome (list bway) :=
    match fuel with
    | O => match d with [] => Ok [] | _ => UB end
    | S f =>
        match d with
        | [] => Ok []
        | x0 :: _ =>
            let wn := last d x0 in
            match removelast d with
            | [] => UB
            | c :: r =>
                let (k, x) := closest wn r 1 (0%nat, c) in
                let! rest := repair f (remove_nth k (c :: r)) in
                Ok (pseudo_way x wn :: rest)
            end
        end
    end.
  (** builder.hpp 562-637: find_and_repair_holes_in_rings *)
  Definition find_and_repair (ws : list winfo) : outcome (list winfo * bool) :=
    let d := single (srt (end_nodes ws)) in
    if Nat.odd (List.length d) then AssertFail
    else if negb attempt_repair && negb (List.length d =? 0)%nat then Ok (reset ws, false)
    else let! ps := repair (List.length d) d in Ok (reset ws ++ map wi_new ps, true).

  (** builder.hpp 667-687: make_rings *)
  Definition make_rings (ws : list winfo) : outcome (list winfo * list ring) :=
    let! (ws1, rings1) := ring_loop (S (List.length ws)) ws [] in
    let! (ws2, ok) := find_and_repair ws1 in
    if negb ok then Throw EDanglingEnds
    else
      let! (ws3, rings3) := ring_loop (S (List.length ws2)) ws2 rings1 in
      match rings3 with [] => Throw ENoRings | _ => Ok (ws3, rings3) end.

  (** builder.hpp 644-660: assemble_ways.  static_pointer_cast of a node or relation to a way is
      UB when used; the assembler only keeps ways. *)
  Fixpoint assemble_ways (ms : list (option object)) (added : list Z) (ts : Z) : outcome (list winfo * Z) :=
    match ms with
    | [] => Ok ([], ts)
    | None :: r => assemble_ways r added ts
    | Some (OWay w) :: r =>
        match w_nodes w with
        | [] => assemble_ways r added ts
        | n :: ns =>
            let id := o_id (w_attrs w) in
            if negb attempt_repair || negb (existsb (Z.eqb id) added) then
              let t := o_timestamp (w_attrs w) in
              let! (l, ts') := assemble_ways r (id :: added) (if t >? ts then t else ts) in
              Ok (wi_new (mkBW (w_attrs w) n ns) :: l, ts')
            else assemble_ways r added ts
        end
    | Some _ :: _ => UB
    end.

  (* ---- geometry and tags of the result ---- *)
  (** pp->contains between two rings (711) *)
  Variable contains : G -> G -> bool.
  (** check_touching_inner_rings (804-866): the polygons of the inner rings before and after; None:
      a null pointer.  GEOS exceptions that the code does not catch are left out. *)
  Variable touching : list (option G) -> list (option G).
  (** createPolygon and isValid of outer ring and holes (897-900) *)
  Variable polygon : G -> list G -> option P.
  (** createMultiPolygon and isValid (949-966) *)
  Variable multipolygon : list P -> bool.

  Definition ring_matrix (rings : list ring) : matrix :=
    fun i j => match nth_error rings i, nth_error rings j with
               | Some a, Some b => contains (rg_geom a) (rg_geom b)
               | _, _ => false
               end.
  Definition way_tags (ws : list winfo) (i : nat) : tag_list :=
    match nth_error ws i with Some w => o_tags (b_attrs (wi_way w)) | None => [] end.
  (** builder.hpp 758-780: handle_one_way_inner_ring: Some w: an extra area for this way *)
  Definition one_way_inner (ws : list winfo) (rings : list ring) (area : tag_list) (container : option nat) (r : ring) : option nat :=
    match rg_ways r with
    | [i] =>
        if untagged (way_tags ws i) then None
        else if same_tags (way_tags ws i) area then None
        else match container with
             | Some c =>
                 match nth_error rings c with
                 | Some rc =>
                     match rg_ways rc with
                     | [j] => if same_tags (way_tags ws i) (way_tags ws j) then None else Some i
                     | _ => Some i
                     end
                 | None => Some i
                 end
             | None => Some i
             end
    | _ => None
    end.
  (** builder.hpp 922-945: the tags of the new area after one outer ring *)
  Definition merge_way (one : bool) (ws : list winfo) (tags : tag_list) (i : nat) : tag_list :=
    let t := way_tags ws i in
    if untagged t then tags
    else if same_tags tags t then tags
    else if untagged tags then fst (merge_tags tags t)
    else if one then fst (merge_tags tags t) else tags.
  Definition outer_tags (outer_count : nat) (ws : list winfo) (tags : tag_list) (r : ring) : tag_list :=
    fold_left (merge_way ((outer_count =? 1)%nat && (List.length (rg_ways r) =? 1)%nat) ws) (rg_ways r) tags.
  Fixpoint some_list {A} (l : list (option A)) : list A :=
    match l with [] => [] | Some x :: r => x :: some_list r | None :: r => some_list r end.
  (** the polygons of the rings after touching, written back in the order of the inner rings *)
  Fixpoint write_back (is_ : list nat) (l : list (option G)) (geo : list (option G)) : list (option G) :=
    match is_, l with
    | i :: is', g :: l' => write_back is' l' (set_nth i g geo)
    | _, _ => geo
    end.
  Definition polygons_of (geo : list (option G)) (is_ : list nat) : list (option G) :=
    map (fun i => match nth_error geo i with Some g => g | None => None end) is_.
  (** builder.hpp 878-947: the loop over outer rings: polygons and tags; [geo]: the polygon
      pointers of all rings *)
  Fixpoint outer_loop (ws : list winfo) (rings : list ring) (inner : nat -> list nat) (container : nat -> option nat)
    (outer_count : nat) (is_ : list nat) (geo : list (option G)) (tags : tag_list) : outcome (list P * tag_list) :=
    match is_ with
    | [] => Ok ([], tags)
    | i :: rest =>
        match nth_error rings i, container i with
        | Some r, None =>
            let holes := match inner i with [] => [] | _ => touching (polygons_of geo (inner i)) end in
            let geo' := write_back (inner i) holes geo in
            match nth_error geo' i with
            | Some (Some g) =>
                match polygon g (some_list (polygons_of geo' (inner i))) with
                | None => Throw EInvalidRing
                | Some p =>
                    let! (ps, t) := outer_loop ws rings inner container outer_count rest geo' (outer_tags outer_count ws tags r) in
                    Ok (p :: ps, t)
                end
            | _ => UB
            end
        | _, _ => outer_loop ws rings inner container outer_count rest geo tags
        end
    end.
  Definition is_outer (container : nat -> option nat) (i : nat) : bool :=
    match container i with None => true | Some _ => false end.
  (** builder.hpp 790-802: handle_one_way_inner_rings: the ways that become areas of their own *)
  Definition extra_ways (ws : list winfo) (rings : list ring) (container : nat -> option nat) (tags : tag_list) : list nat :=
    flat_map (fun i => match nth_error rings i, container i with
                       | Some rg, Some c =>
                           match one_way_inner ws rings tags (Some c) rg with Some k => [k] | None => [] end
                       | _, _ => []
                       end) (seq 0 (List.length rings)).
  (** 777: the areas made of them *)
  Fixpoint extra_areas (ws : list winfo) (l : list nat) : outcome (list attrs) :=
    match l with
    | [] => Ok []
    | k :: l' =>
        match nth_error ws k with
        | Some w =>
            let wa := b_attrs (wi_way w) in
            let! wid := area_id_of_way (o_id wa) in
            let! y := extra_areas ws l' in Ok (with_id wa wid :: y)
        | None => UB
        end
    end.
  (** builder.hpp 871-972: build_multipolygon after the one-way inner rings: the tags of the area *)
  Definition build_multipolygon (ws : list winfo) (rings : list ring) (inner : nat -> list nat)
    (container : nat -> option nat) (tags : tag_list) : outcome tag_list :=
    let n := List.length rings in
    let outer_count := List.length (filter (is_outer container) (seq 0 n)) in
    let! (ps, tags') := outer_loop ws rings inner container outer_count (seq 0 n) (map (fun r => Some (rg_geom r)) rings) tags in
    match ps with
    | [] => Throw ENoRings
    | _ => if multipolygon ps then Ok tags' else Throw EInvalidMultiPolygon
    end.
  (** builder.hpp 308-324: build.  The areas are given by their attributes, their geometry is that
      of the oracles.  Areas made before a BuildError stay in the result. *)
  Definition build (r : relation) (ms : list (option object)) : outcome (list attrs) :=
    let a := r_attrs r in
    let! id := area_id_of_relation (o_id a) in
    let! (ws, ts) := assemble_ways ms [] (o_timestamp a) in
    match make_rings ws with
    | Throw e => if is_build_error e then Ok [] else Throw e
    | UB => UB
    | AssertFail => AssertFail
    | Ok (ws', rings) =>
        let '(inner, container) := nesting (ring_matrix rings) (List.length rings) in
        let! xs := extra_areas ws' (extra_ways ws' rings container (o_tags a)) in
        match build_multipolygon ws' rings inner container (o_tags a) with
        | Throw e => if is_build_error e then Ok xs else Throw e
        | UB => UB
        | AssertFail => AssertFail
        | Ok tags =>
            Ok (xs ++ [mkAttrs id (o_version a) (o_changeset a) ts (o_endtime a) (o_uid a) (o_user a) (o_visible a) tags])
        end
    end.
End Builder.
