(** C31-C35, C57: the multipolygon builder. *)
From Coq Require Import Sorting.Permutation.
From Verif Require Import Base.Prelude Model.Osm Model.Handler Model.Assembler Model.Builder
  Spec.BuilderSpec Proofs.Builder4Proofs Proofs.Builder5Proofs Proofs.Builder6Proofs Proofs.Builder7Proofs Proofs.Builder8Proofs Proofs.Builder9Proofs.

(* ---- data for the examples ---- *)
Definition bat (id : Z) (ts : tag_list) : attrs := mkAttrs id 1 0 1 0 (-1) "" true ts.
Definition wn_ (r : Z) : way_node := mkWN r undef_pos.
Definition bw (id : Z) (a : Z) (r : list Z) : bway := mkBW (bat id []) (wn_ a) (map wn_ r).
(** a sort for the examples: insertion sort *)
Fixpoint wins (x : way_node) (l : list way_node) : list way_node :=
  match l with [] => [x] | y :: r => if wn_ref x <=? wn_ref y then x :: l else y :: wins x r end.
Definition wsort (l : list way_node) : list way_node := fold_right wins [] l.
Lemma wins_perm x l : Permutation (wins x l) (x :: l).
Proof.
  induction l as [|y l IH]; cbn; auto. destruct (wn_ref x <=? wn_ref y); auto.
  eapply perm_trans; [apply perm_skip; exact IH|apply perm_swap].
Qed.
Lemma wsort_sorts : sorts wsort.
Proof.
  intros l. induction l as [|x l [IH1 IH2]]; cbn; [split; constructor|]. split.
  - apply Permutation_sym. eapply perm_trans; [apply wins_perm|]. now apply perm_skip, Permutation_sym.
  - fold (wsort l). revert IH2. generalize (wsort l). clear. intros l S. unfold ref_le in *. induction S as [|y l S IH F]; cbn; [repeat constructor|].
    rewrite Forall_forall in F. destruct (Z.leb_spec (wn_ref x) (wn_ref y)).
    + constructor; [constructor; auto; rewrite Forall_forall; auto|]. rewrite Forall_forall. intros z [<-|Hz]; auto. specialize (F z Hz). lia.
    + constructor; auto. rewrite Forall_forall. intros z Hz. apply (Permutation_in _ (wins_perm x l)) in Hz as [<-|Hz]; [lia|auto].
Qed.
(** distance for the examples: between refs *)
Definition ref_closer (wn a b : way_node) : bool := Z.abs (wn_ref a - wn_ref wn) <? Z.abs (wn_ref b - wn_ref wn).
Lemma ref_closer_order : weak_order ref_closer.
Proof. intros wn. unfold ref_closer. repeat split; intros; rewrite ?Z.ltb_ge, ?Z.ltb_lt in *; lia. Qed.
Definition any_ring (l : list (bway * bool)) : option nat := Some (List.length l).

(* ---- C31 ---- *)
(** Every ring is a closed chain of distinct ways, and no way is in two rings. *)
Theorem C31_rings : forall G (mkring : list (bway * bool) -> option G) srt closer rep W ws rings,
  sorts srt -> make_rings mkring srt closer rep (map wi_new W) = Ok (ws, rings) ->
  exists V, map wi_way ws = W ++ V /\ Forall (ring_of mkring (W ++ V)) rings /\ NoDup (List.concat (map rg_ways rings)).
Proof. exact @rings_thm. Qed.
Print Assumptions C31_rings.
(** There is no other outcome than rings or one of two exceptions: the search terminates. *)
Theorem C31_outcomes : forall G (mkring : list (bway * bool) -> option G) srt closer rep W,
  sorts srt ->
  (exists ws rings, make_rings mkring srt closer rep (map wi_new W) = Ok (ws, rings) /\ rings <> []) \/
  make_rings mkring srt closer rep (map wi_new W) = Throw EDanglingEnds \/
  make_rings mkring srt closer rep (map wi_new W) = Throw ENoRings.
Proof. exact @outcomes_thm. Qed.
Print Assumptions C31_outcomes.
(** Two rings, one of three ways with one turned around, after a dead end at way 3. *)
Example C31_example : exists ws,
  make_rings any_ring wsort ref_closer false
    (map wi_new [bw 1 10 [11; 12]; bw 2 13 [12]; bw 3 12 [50; 12]; bw 4 13 [10]; bw 5 60 [61; 60]]) =
  Ok (ws, [mkRing 3%nat [3; 1; 0]%nat; mkRing 1%nat [2]%nat; mkRing 1%nat [4]%nat]).
Proof. vm_compute. eexists. reflexivity. Qed.

(* ---- C32 ---- *)
(** The search is exhaustive: if a way is left over, then no acceptable ring starts at the first
    such way. *)
Theorem C32_exhaustive : forall G (mkring : list (bway * bool) -> option G) srt closer rep W ws rings,
  sorts srt -> make_rings mkring srt closer rep (map wi_new W) = Ok (ws, rings) ->
  forall i, (i < List.length ws)%nat -> ~ in_ring rings i -> (forall j, (j < i)%nat -> in_ring rings j) ->
  forall p st, candidate (map wi_way ws) (in_ring rings) i p -> spells (map wi_way ws) p st -> mkring st = None.
Proof. exact @exhaustive_thm. Qed.
Print Assumptions C32_exhaustive.
Theorem C32_no_rings : forall G (mkring : list (bway * bool) -> option G) srt closer rep W,
  sorts srt -> make_rings mkring srt closer rep (map wi_new W) = Throw ENoRings ->
  exists V, (rep = false -> V = []) /\ (forall z, ends_count V z = (ends_count W z mod 2)%nat) /\
    forall p st, candidate (W ++ V) (fun _ => False) 0%nat p -> spells (W ++ V) p st -> mkring st = None.
Proof. exact @no_rings_thm. Qed.
Print Assumptions C32_no_rings.
(** If all ways are closed and give valid rings, all of them are in rings. *)
Theorem C32_all_closed : forall G (mkring : list (bway * bool) -> option G) srt closer rep W,
  sorts srt -> W <> [] -> (forall w, In w W -> firstnode w = lastnode w /\ mkring [(w, false)] <> None) ->
  exists ws rings, make_rings mkring srt closer rep (map wi_new W) = Ok (ws, rings) /\
    forall i, (i < List.length W)%nat -> in_ring rings i.
Proof. exact @all_closed_thm. Qed.
Print Assumptions C32_all_closed.
(** rings through way 2 are not accepted *)
Definition not_two (l : list (bway * bool)) : option nat :=
  if existsb (fun s => o_id (b_attrs (fst s)) =? 2) l then None else Some (List.length l).
(** Finding: one invalid way makes all ways after it unused; the result depends on the order. *)
Theorem C32_order_refuted : exists (mkring : list (bway * bool) -> option nat) W W',
  Permutation W W' /\ make_rings mkring wsort ref_closer false (map wi_new W) = Throw ENoRings /\
  exists ws rings, make_rings mkring wsort ref_closer false (map wi_new W') = Ok (ws, rings).
Proof.
  exists not_two, [bw 2 10 [11; 10]; bw 3 20 [21; 22; 20]], [bw 3 20 [21; 22; 20]; bw 2 10 [11; 10]].
  split; [apply perm_swap|]. split; [reflexivity|]. vm_compute. eauto.
Qed.
Print Assumptions C32_order_refuted.
Example C32_example : exists ws, make_rings not_two wsort ref_closer false
    (map wi_new [bw 1 10 [11; 12]; bw 2 12 [10]; bw 3 12 [13]; bw 4 10 [13]; bw 5 10 [14; 12]]) =
    Ok (ws, [mkRing 3%nat [3; 2; 0]%nat]) /\
  ~ in_ring [mkRing 3%nat [3; 2; 0]%nat] 1 /\
  candidate (map wi_way ws) (in_ring [mkRing 3%nat [3; 2; 0]%nat]) 1 [(1, false); (4, false)]%nat.
Proof.
  eexists. split; [vm_compute; reflexivity|]. split; [cbn; intuition discriminate|].
  eexists. exists [(4, false)]%nat. split; [vm_compute; reflexivity|]. split; [reflexivity|]. split; [repeat constructor; cbn; intuition discriminate|].
  split; [cbn; intuition (subst; discriminate)|]. cbn. split; [discriminate|]. eexists. split; [reflexivity|]. split; reflexivity.
Qed.

(* ---- C33 ---- *)
Theorem C33_holes : forall con, proper_nesting con -> forall n j, (j < n)%nat ->
  (snd (nesting con n) j <> None <-> Nat.odd (depth con n j) = true).
Proof. exact nesting_holes. Qed.
Print Assumptions C33_holes.
(** A hole is listed with its direct container, and only with rings it is in. *)
Theorem C33_listed : forall con, proper_nesting con -> forall n i j, In j (fst (nesting con n) i) ->
  (i < n)%nat /\ (j < n)%nat /\ inside con i j = true /\ Nat.odd (depth con n j) = true.
Proof. exact nesting_inner. Qed.
Print Assumptions C33_listed.
Theorem C33_direct : forall con, proper_nesting con -> forall n i j, (i < n)%nat -> (j < n)%nat ->
  direct con n i j -> Nat.odd (depth con n j) = true -> In j (fst (nesting con n) i).
Proof. exact nesting_direct. Qed.
Print Assumptions C33_direct.
Theorem C33_container : forall con, proper_nesting con -> forall n i j,
  snd (nesting con n) j = Some i -> (j < n)%nat -> In j (fst (nesting con n) i).
Proof. exact nesting_container. Qed.
Print Assumptions C33_container.
(** A hole belongs to exactly its direct container, if no ring is in more than two others or the
    rings come from the outside in. *)
Theorem C33_exact : forall con, proper_nesting con -> forall n,
  (forall j, (j < n)%nat -> (depth con n j <= 2)%nat) \/ outside_in con n ->
  forall i j, (i < n)%nat -> (j < n)%nat ->
  (In j (fst (nesting con n) i) <-> direct con n i j /\ Nat.odd (depth con n j) = true).
Proof. exact nesting_exact. Qed.
Print Assumptions C33_exact.
(** four rings inside each other, the outermost is ring 1, then 0, 2, 3 *)
Definition level (i : nat) : nat := match i with O => 2 | 1 => 1 | S (S k) => k + 3 end%nat.
Definition four (i j : nat) : bool := (level i <? level j)%nat.
Lemma four_proper : proper_nesting four.
Proof. unfold four. split; intros i j; [rewrite Nat.ltb_lt, Nat.ltb_ge; lia|]. intros k. rewrite !Nat.ltb_lt. lia. Qed.
(** Finding: with four rings inside each other the innermost can become a hole of two rings. *)
Theorem C33_exact_refuted : exists con n i j, proper_nesting con /\ In j (fst (nesting con n) i) /\ ~ direct con n i j.
Proof.
  exists four, 4%nat, 1%nat, 3%nat. split; [apply four_proper|]. split; [vm_compute; auto|].
  intros [_ D]. apply (D 0%nat); [lia|reflexivity|reflexivity].
Qed.
Print Assumptions C33_exact_refuted.
(** rings 0 > 1 > 2 and 0 > 3, and 4 on its own *)
Definition tree (i j : nat) : bool :=
  match i, j with 0, 1 | 0, 2 | 0, 3 | 1, 2 => true | _, _ => false end%nat.
Lemma tree_proper : proper_nesting tree.
Proof.
  split.
  - intros [|[|[|[|i]]]] [|[|[|[|j]]]]; cbn; congruence.
  - intros [|[|[|[|i]]]] [|[|[|[|j]]]] [|[|[|[|k]]]]; cbn; congruence.
Qed.
Example C33_example :
  map (fst (nesting tree 5)) [0; 1; 2; 3; 4]%nat = [[1; 3]; []; []; []; []]%nat /\
  map (snd (nesting tree 5)) [0; 1; 2; 3; 4]%nat = [None; Some 0; None; Some 0; None]%nat /\
  map (depth tree 5) [0; 1; 2; 3; 4]%nat = [0; 1; 2; 1; 0]%nat.
Proof. split; [reflexivity|]. split; reflexivity. Qed.

(* ---- C34 ---- *)
(** Without repair the build fails exactly if an odd number of ways ends at some node. *)
Theorem C34_error : forall G (mkring : list (bway * bool) -> option G) srt closer rep W,
  sorts srt -> rep = false ->
  (make_rings mkring srt closer rep (map wi_new W) = Throw EDanglingEnds <-> exists z, Nat.odd (ends_count W z) = true).
Proof. exact @dangling_thm. Qed.
Print Assumptions C34_error.
(** With repair ways are added; then an even number of ways ends at every node. *)
Theorem C34_repaired : forall G (mkring : list (bway * bool) -> option G) srt closer rep W,
  sorts srt -> rep = true ->
  make_rings mkring srt closer rep (map wi_new W) <> Throw EDanglingEnds /\
  forall ws rings, make_rings mkring srt closer rep (map wi_new W) = Ok (ws, rings) -> exists V, map wi_way ws = W ++ V /\
    forall z, ends_count V z = (ends_count W z mod 2)%nat /\ Nat.even (ends_count (map wi_way ws) z) = true.
Proof. exact @repair_thm. Qed.
Print Assumptions C34_repaired.
(** The dangling nodes found are those at which an odd number of unused ways ends, each once. *)
Theorem C34_dangling_nodes : forall srt ws z, sorts srt ->
  count_occ Z.eq_dec (map wn_ref (single (srt (end_nodes ws)))) z = (ends_count (unused ws) z mod 2)%nat /\
  Nat.even (List.length (single (srt (end_nodes ws)))) = true.
Proof. exact dangling_nodes_thm. Qed.
Print Assumptions C34_dangling_nodes.
(** The last dangling node is connected to the one closest to it. *)
Theorem C34_closest : forall closer fuel d wn p ps, weak_order closer -> repair closer fuel (d ++ [wn]) = Ok (p :: ps) ->
  exists x, In x d /\ bnodes p = [x; wn] /\ forall y, In y d -> closer wn y x = false.
Proof. exact closest_thm. Qed.
Print Assumptions C34_closest.
Definition gap : list bway := [bw 1 10 [11; 12]; bw 2 14 [15; 16]; bw 3 18 [19; 10]].
Example C34_example_error : make_rings any_ring wsort ref_closer false (map wi_new gap) = Throw EDanglingEnds.
Proof. reflexivity. Qed.
Example C34_example : exists ws, make_rings any_ring wsort ref_closer true (map wi_new gap) = Ok (ws, [mkRing 5%nat [2; 3; 1; 4; 0]%nat]) /\
  map bnodes (skipn 3 (map wi_way ws)) = [[wn_ 16; wn_ 18]; [wn_ 12; wn_ 14]].
Proof. eexists. split; vm_compute; reflexivity. Qed.

(* ---- C35 ---- *)
Theorem C35_ignored : forall k, ignore_tag k = true <-> ignored k.
Proof. exact ignore_iff. Qed.
Print Assumptions C35_ignored.
Theorem C35_untagged : forall ts, untagged ts = true <-> forall k v, has_tag ts k v -> ignored k.
Proof. exact untagged_iff. Qed.
Print Assumptions C35_untagged.
Theorem C35_same_tags : forall a b, keys_unique a -> keys_unique b ->
  (same_tags a b = true <->
   (forall k v, ~ ignored k -> has_tag a k v -> has_tag b k v) /\
   (forall k v, ~ ignored k -> has_tag b k v -> has_tag a k v \/ (v = ""%string /\ ~ has_key a k))).
Proof. exact same_tags_spec. Qed.
Print Assumptions C35_same_tags.
(** Finding: tags with an empty value in the second list need not be in the first. *)
Theorem C35_symmetry_refuted : exists a b, keys_unique a /\ keys_unique b /\ same_tags a b = true /\ same_tags b a = false.
Proof.
  exists [], [mkTag "k" ""]. split; [constructor|]. split; [repeat constructor; intros []|]. split; reflexivity.
Qed.
Print Assumptions C35_symmetry_refuted.
Theorem C35_merge : forall area way, keys_unique area -> keys_unique way ->
  fst (merge_tags area way) = area ++ filter (is_new area) way /\
  (snd (merge_tags area way) = true <-> forall k v v', ~ ignored k -> has_tag way k v -> has_tag area k v' -> v = v').
Proof. exact merge_tags_spec. Qed.
Print Assumptions C35_merge.
Theorem C35_merge_unique : forall area way, keys_unique area -> keys_unique way -> keys_unique (fst (merge_tags area way)).
Proof. exact merge_keys_unique. Qed.
Print Assumptions C35_merge_unique.
Example C35_example_same :
  same_tags [mkTag "natural" "wood"; mkTag "note" "x"; mkTag "name" "A"] [mkTag "name" "A"; mkTag "natural" "wood"; mkTag "type" "y"] = true.
Proof. reflexivity. Qed.
Example C35_example :
  merge_tags [mkTag "type" "multipolygon"; mkTag "natural" "wood"] [mkTag "source" "s"; mkTag "natural" "water"; mkTag "name" "A"] =
  ([mkTag "type" "multipolygon"; mkTag "natural" "wood"; mkTag "name" "A"], false).
Proof. reflexivity. Qed.

(* ---- C57 ---- *)
(** A build never fails: it gives the areas of tagged inner ways and, if all went well, the area
    of the relation. *)
Theorem C57_build : forall G P (mkring : list (bway * bool) -> option G) srt closer (rep : bool) contains touching (polygon : G -> list G -> option P) multipolygon r ms,
  sorts srt -> Forall way_or_missing ms -> in_i64b (2 * o_id (r_attrs r)) = true -> in_i64b (2 * o_id (r_attrs r) + Z.sgn (o_id (r_attrs r))) = true ->
  (forall w, In w (usable ms) -> in_i64b (2 * o_id (w_attrs w)) = true) ->
  let L := if rep then first_by_id [] (usable ms) else usable ms in
  exists xs, Forall (own_area L) xs /\
    (build mkring srt closer rep contains touching polygon multipolygon r ms = Ok xs \/
     exists a, build mkring srt closer rep contains touching polygon multipolygon r ms = Ok (xs ++ [a]) /\ relation_area r L a).
Proof. exact @build_spec. Qed.
Print Assumptions C57_build.
(** If the ways do not give rings there is no area. *)
Theorem C57_no_rings : forall G P (mkring : list (bway * bool) -> option G) srt closer (rep : bool) contains touching (polygon : G -> list G -> option P) multipolygon r ms W e,
  sorts srt -> Forall way_or_missing ms ->
  in_i64b (2 * o_id (r_attrs r)) = true -> in_i64b (2 * o_id (r_attrs r) + Z.sgn (o_id (r_attrs r))) = true ->
  map way_of W = (if rep then first_by_id [] (usable ms) else usable ms) ->
  make_rings mkring srt closer rep (map wi_new W) = Throw e ->
  build mkring srt closer rep contains touching polygon multipolygon r ms = Ok [].
Proof. exact @build_throws. Qed.
Print Assumptions C57_no_rings.
(** If they do and all geometries are valid, the area of the relation comes last. *)
Theorem C57_success : forall G P (mkring : list (bway * bool) -> option G) srt closer (rep : bool) contains touching (polygon : G -> list G -> option P) multipolygon r ms W ws rings,
  sorts srt -> Forall way_or_missing ms ->
  in_i64b (2 * o_id (r_attrs r)) = true -> in_i64b (2 * o_id (r_attrs r) + Z.sgn (o_id (r_attrs r))) = true ->
  (forall w, In w (map way_of W) -> in_i64b (2 * o_id (w_attrs w)) = true) ->
  map way_of W = (if rep then first_by_id [] (usable ms) else usable ms) ->
  make_rings mkring srt closer rep (map wi_new W) = Ok (ws, rings) -> proper_nesting (ring_matrix contains rings) ->
  (forall g hs, polygon g hs <> None) -> (forall ps, multipolygon ps = true) ->
  exists xs a, build mkring srt closer rep contains touching polygon multipolygon r ms = Ok (xs ++ [a]) /\
    Forall (own_area (map way_of W)) xs /\ relation_area r (map way_of W) a.
Proof. exact @build_succeeds. Qed.
Print Assumptions C57_success.
(** The other areas are exactly those of holes made of one way with tags of its own. *)
Theorem C57_own_areas : forall G P (mkring : list (bway * bool) -> option G) srt closer (rep : bool) contains touching (polygon : G -> list G -> option P) multipolygon r ms W ws rings,
  sorts srt -> Forall way_or_missing ms ->
  in_i64b (2 * o_id (r_attrs r)) = true -> in_i64b (2 * o_id (r_attrs r) + Z.sgn (o_id (r_attrs r))) = true ->
  (forall w, In w (map way_of W) -> in_i64b (2 * o_id (w_attrs w)) = true) ->
  map way_of W = (if rep then first_by_id [] (usable ms) else usable ms) ->
  make_rings mkring srt closer rep (map wi_new W) = Ok (ws, rings) ->
  let con := ring_matrix contains rings in let n := List.length rings in
  let result := build mkring srt closer rep contains touching polygon multipolygon r ms in
  proper_nesting con -> (forall j, (j < n)%nat -> (depth con n j <= 2)%nat) \/ outside_in con n ->
  exists xs, (result = Ok xs \/ exists a, result = Ok (xs ++ [a]) /\ relation_area r (map way_of W) a) /\
    (forall a, In a xs -> exists j c w, direct con n c j /\ Nat.odd (depth con n j) = true /\ lone_ring ws rings j w /\
                                       own_tags ws rings (o_tags (r_attrs r)) c w /\ a = way_area w) /\
    (forall j w, Nat.odd (depth con n j) = true -> lone_ring ws rings j w ->
       (forall c, (c < n)%nat -> direct con n c j -> own_tags ws rings (o_tags (r_attrs r)) c w) -> In (way_area w) xs).
Proof. exact @build_own. Qed.
Print Assumptions C57_own_areas.

(* a relation with an outer way and a tagged inner way; rings are known by the ids of their ways *)
Definition id_ring (l : list (bway * bool)) : option Z :=
  match l with [(w, _)] => Some (o_id (b_attrs w)) | _ => None end.
Definition mway (id : Z) (ts : tag_list) (refs : list Z) : option object :=
  Some (OWay (mkWay (mkAttrs id 3 0 (100 + id) 0 (-1) "" true ts) (map wn_ refs))).
Definition lake : relation := mkRelation (mkAttrs 7 2 0 101 0 5 "u" true [mkTag "type" "multipolygon"]) [].
Definition lake_members : list (option object) :=
  [mway 1 [mkTag "natural" "water"] [10; 11; 12; 10]; None; mway 2 [mkTag "place" "island"] [20; 21; 22; 20]; mway 3 [] []].
Definition build_lake (polygon : Z -> list Z -> option nat) : outcome (list attrs) :=
  build id_ring wsort ref_closer false (fun a b => (a =? 1) && (b =? 2)) (fun l => l) polygon (fun _ => true) lake lake_members.
Example C57_example : build_lake (fun _ hs => Some (List.length hs)) =
  Ok [mkAttrs 4 3 0 102 0 (-1) "" true [mkTag "place" "island"];
      mkAttrs 15 2 0 102 0 5 "u" true [mkTag "type" "multipolygon"; mkTag "natural" "water"]].
Proof. reflexivity. Qed.
(** Finding: a build that fails with InvalidRing still returns the areas of inner ways. *)
Theorem C57_failed_build_refuted : exists x, build_lake (fun _ _ => None) = Ok [x].
Proof. eexists. vm_compute. reflexivity. Qed.
Print Assumptions C57_failed_build_refuted.
(** The area of the relation is made exactly if the polygon of every outer ring with its holes is
    valid and the multipolygon of these is; its tags are those of the relation and [area_tags]. *)
Theorem C57_area : forall G P (mkring : list (bway * bool) -> option G) srt closer (rep : bool) contains touching (polygon : G -> list G -> option P) multipolygon,
  (forall l, List.length (touching l) = List.length l) -> forall r ms W ws rings,
  sorts srt -> Forall way_or_missing ms ->
  in_i64b (2 * o_id (r_attrs r)) = true -> in_i64b (2 * o_id (r_attrs r) + Z.sgn (o_id (r_attrs r))) = true ->
  (forall w, In w (map way_of W) -> in_i64b (2 * o_id (w_attrs w)) = true) ->
  keys_unique (o_tags (r_attrs r)) -> (forall w, In w (map way_of W) -> keys_unique (o_tags (w_attrs w))) ->
  map way_of W = (if rep then first_by_id [] (usable ms) else usable ms) ->
  make_rings mkring srt closer rep (map wi_new W) = Ok (ws, rings) ->
  let con := ring_matrix contains rings in let n := List.length rings in
  let result := build mkring srt closer rep contains touching polygon multipolygon r ms in
  proper_nesting con -> uncrossed con -> (forall j, (j < n)%nat -> (depth con n j <= 2)%nat) \/ outside_in con n ->
  exists xs, Forall (own_area (map way_of W)) xs /\
    ((exists a ps, result = Ok (xs ++ [a]) /\ relation_area r (map way_of W) a /\
        map (shape touching polygon rings con) (outer_rings con n) = map Some ps /\ multipolygon ps = true /\
        o_tags a = area_tags (o_tags (r_attrs r)) (map (ring_tags ws rings) (outer_rings con n))) \/
     (result = Ok xs /\ forall ps, map (shape touching polygon rings con) (outer_rings con n) = map Some ps -> multipolygon ps = false)).
Proof. exact @build_exact. Qed.
Print Assumptions C57_area.
(* an outer way with a hole and one without; the polygon of a ring is the ring with its holes *)
Definition woods : relation := mkRelation (mkAttrs 8 1 0 0 0 5 "u" true [mkTag "type" "multipolygon"; mkTag "natural" "wood"]) [].
Definition woods_members : list (option object) :=
  [mway 1 [mkTag "name" "A"] [10; 11; 12; 10]; mway 2 [] [20; 21; 22; 20]; mway 3 [] [30; 31; 32; 30]].
Definition woods_ways : list bway :=
  map (fun i => mkBW (mkAttrs i 3 0 (100 + i) 0 (-1) "" true (if i =? 1 then [mkTag "name" "A"] else [])) (wn_ (10 * i)) (map wn_ [10 * i + 1; 10 * i + 2; 10 * i])) [1; 2; 3].
Definition hole_in (a b : Z) : bool := (a =? 1) && (b =? 2).
Definition build_woods (multipolygon : list (Z * list Z) -> bool) (ms : list (option object)) : outcome (list attrs) :=
  build id_ring wsort ref_closer false hole_in (fun l => l) (fun g hs => Some (g, hs)) multipolygon woods ms.
Example C57_area_example : exists ws rings,
  map way_of woods_ways = usable woods_members /\ make_rings id_ring wsort ref_closer false (map wi_new woods_ways) = Ok (ws, rings) /\
  proper_nesting (ring_matrix hole_in rings) /\ uncrossed (ring_matrix hole_in rings) /\ outside_in (ring_matrix hole_in rings) 3 /\
  outer_rings (ring_matrix hole_in rings) (List.length rings) = [0; 2]%nat /\
  map (shape (fun l => l) (fun g hs => Some (g, hs)) rings (ring_matrix hole_in rings)) [0; 2]%nat = map Some [(1, [2]); (3, [])] /\
  build_woods (fun ps => match ps with [(1, [2]); (3, [])] => true | _ => false end) woods_members =
    Ok [mkAttrs 17 1 0 103 0 5 "u" true [mkTag "type" "multipolygon"; mkTag "natural" "wood"]] /\
  build_woods (fun _ => false) woods_members = Ok [] /\
  build_woods (fun ps => match ps with [(1, [])] => true | _ => false end) (firstn 1 woods_members) =
    Ok [mkAttrs 17 1 0 101 0 5 "u" true [mkTag "type" "multipolygon"; mkTag "natural" "wood"; mkTag "name" "A"]].
Proof.
  do 2 eexists. split; [reflexivity|]. split; [vm_compute; reflexivity|].
  assert (M : forall i j, ring_matrix hole_in [mkRing 1 [0%nat]; mkRing 2 [1%nat]; mkRing 3 [2%nat]] i j = (i =? 0)%nat && (j =? 1)%nat).
  { intros [|[|[|[|i]]]] [|[|[|[|j]]]]; reflexivity. }
  assert (I : forall i j, inside (ring_matrix hole_in [mkRing 1 [0%nat]; mkRing 2 [1%nat]; mkRing 3 [2%nat]]) i j = true -> i = 0%nat /\ j = 1%nat).
  { intros i j. unfold inside. rewrite M. rewrite !andb_true_iff, !Nat.eqb_eq. tauto. }
  split; [split; intros i j; [intros _|intros k]; rewrite !M, ?andb_true_iff, ?andb_false_iff, ?Nat.eqb_eq, ?Nat.eqb_neq; lia|].
  split; [intros i i' j A B; apply I in A, B; left; lia|]. split; [intros i j _ _ A; apply I in A; lia|].
  repeat split; vm_compute; reflexivity.
Qed.
