(** C19-C27, C54: handlers, the callback protocol, ObjectStore, shared objects. *)
From Verif Require Import Base.Prelude Model.Osm Model.Store Model.Handler Model.Reuse
  Spec.OsmSpec Spec.StoreSpec Spec.HandlerSpec Spec.ReuseSpec
  Proofs.HandlerProofs Proofs.Handler2Proofs Proofs.Handler3Proofs Proofs.ReuseProofs.

Definition nd (id ver ts : Z) : object := ONode (mkNode (mkAttrs id ver 0 ts 0 (-1) "" true []) (mkPos id ver)).
Definition wy (id ver ts : Z) (refs : list Z) : object :=
  OWay (mkWay (mkAttrs id ver 0 ts 0 (-1) "" true []) (map (fun r => mkWN r undef_pos) refs)).

(* ---- C19 ---- *)
Theorem C19_contents : forall l, types_ok l ->
  exists ns ws rs, ostore_add_all l ostore_new = Ok (mkOS ns ws rs) /\
    firsts_sorted (ofilter NODE l) ns /\ firsts_sorted (ofilter WAY l) ws /\ firsts_sorted (ofilter RELATION l) rs.
Proof. exact store_contents. Qed.
Print Assumptions C19_contents.
Theorem C19_feed_to : forall ns ws rs clear S (next : callback -> S -> S * option halt) s s',
  takes next (CInit :: bracket (NODE, ns) ++ bracket (WAY, ws) ++ bracket (RELATION, rs) ++ [CFinal]) s s' ->
  exec next (feed_prog clear (mkOS ns ws rs)) (mkOS ns ws rs, s) =
  ((if clear then ostore_new else mkOS ns ws rs, s'), None).
Proof. exact feed_calls. Qed.
Print Assumptions C19_feed_to.
(** If the handler fails, the objects of exactly those types are gone whose end it was told without failing. *)
Theorem C19_feed_stopped : forall ns ws rs clear S (next : callback -> S -> S * option halt) s m s' h,
  feed next (CInit :: bracket (NODE, ns) ++ bracket (WAY, ws) ++ bracket (RELATION, rs) ++ [CFinal]) s = (m, s', h) ->
  exec next (feed_prog clear (mkOS ns ws rs)) (mkOS ns ws rs, s) =
  ((if clear then mkOS (left_of NODE ns (returned m h)) (left_of WAY ws (returned m h)) (left_of RELATION rs (returned m h)) else mkOS ns ws rs, s'), h).
Proof. exact feed_stops. Qed.
Print Assumptions C19_feed_stopped.
Example C19_stopped_ex : exists m s',
  feed (fun c n => (Datatypes.S n, if (n =? 6)%nat then Some (HExn ERuntime) else None))
    (CInit :: bracket (NODE, [nd 1 1 1]) ++ bracket (WAY, [wy 2 1 1 []; wy 3 1 1 []]) ++ bracket (RELATION, []) ++ [CFinal]) O = (m, s', Some (HExn ERuntime)) /\
  left_of NODE [nd 1 1 1] (returned m (Some (HExn ERuntime))) = [] /\
  left_of WAY [wy 2 1 1 []; wy 3 1 1 []] (returned m (Some (HExn ERuntime))) = [wy 2 1 1 []; wy 3 1 1 []].
Proof. eexists. eexists. split; [reflexivity|]. split; reflexivity. Qed.
(** Finding: of two objects with ids n and -n only the first is stored, whatever the versions. *)
Theorem C19_opposite_ids_refuted : exists a b ns,
  obj_id a <> obj_id b /\ ostore_add_all [a; b] ostore_new = Ok (mkOS ns [] []) /\ In a ns /\ ~ In b ns.
Proof.
  exists (nd 5 1 10), (nd (-5) 2 10), [nd 5 1 10]. split; [discriminate|]. split; [reflexivity|].
  split; [left; reflexivity|]. intros [H|[]]. discriminate H.
Qed.
Print Assumptions C19_opposite_ids_refuted.
(** Finding: storing an object with the smallest id next to another is undefined behaviour. *)
Theorem C19_min_id_refuted : exists o o', obj_id o = int64_min /\ ostore_add_all [o; o'] ostore_new = UB.
Proof. exists (nd int64_min 1 1), (nd 3 1 1). split; reflexivity. Qed.
Print Assumptions C19_min_id_refuted.
Example C19_ex : types_ok [nd 7 1 10; wy 7 1 1 [7]; nd (-3) 1 11; nd 7 1 12] /\
  ostore_add_all [nd 7 1 10; wy 7 1 1 [7]; nd (-3) 1 11; nd 7 1 12] ostore_new =
  Ok (mkOS [nd (-3) 1 11; nd 7 1 10] [wy 7 1 1 [7]] []).
Proof.
  split; [|reflexivity].
  repeat split; cbn; try (intros x y Hx Hy; cbn in *; intuition subst; lia); unfold int64_min; intuition discriminate.
Qed.

(* ---- C20 ---- *)
Theorem C20_sorted_merge : forall st runs, NoDup (map fst runs) -> (forall r, In r runs -> run_ok st r) ->
  exists outs, Forall2 (merge_of st) runs outs /\
    forall S (next : callback -> S -> S * option halt) s s',
      takes next (CInit :: flat_map bracket outs ++ [CFinal]) s s' ->
      exists st', takes (stacked next apply_prog) (CInit :: flat_map bracket runs ++ [CFinal]) (apply_new st, s) (st', s').
Proof. exact apply_merges. Qed.
Print Assumptions C20_sorted_merge.
(** Finding: stored objects of a type the stream does not contain are lost. *)
Theorem C20_absent_type_refuted : exists st runs x st' log,
  NoDup (map fst runs) /\ (forall r, In r runs -> run_ok st r) /\
  takes (stacked recorder apply_prog) (CInit :: flat_map bracket runs ++ [CFinal]) (apply_new st, []) (st', log) /\
  In x (os_ways st) /\ ~ In (CObj x) log.
Proof.
  exists (mkOS [] [wy 1 1 1 []] []), [(NODE, [nd 4 1 1])], (wy 1 1 1 []). eexists. eexists.
  split; [repeat constructor; intros []|]. split.
  - intros r [<-|[]]. split; [split; [left; reflexivity|intros o [<-|[]]; reflexivity]|].
    split; [|split; [constructor|repeat constructor]].
    split; [intros x y Hx Hy; cbn in *; intuition lia|]. unfold int64_min; cbn; intuition discriminate.
  - split; [reflexivity|]. split; [left; reflexivity|]. cbn. intuition discriminate.
Qed.
Print Assumptions C20_absent_type_refuted.
Example C20_ex : run_ok (mkOS [nd 3 1 1; nd 9 1 1] [] []) (NODE, [nd 4 1 1; nd 9 2 5]) /\
  exists st', takes (stacked recorder apply_prog) (CInit :: flat_map bracket [(NODE, [nd 4 1 1; nd 9 2 5])] ++ [CFinal])
    (apply_new (mkOS [nd 3 1 1; nd 9 1 1] [] []), [])
    (st', CInit :: flat_map bracket [(NODE, [nd 3 1 1; nd 4 1 1; nd 9 1 1; nd 9 2 5])] ++ [CFinal]).
Proof.
  split; [|eexists; reflexivity].
  split; [split; [left; reflexivity|intros o [<-|[<-|[]]]; reflexivity]|].
  split; [split; [intros x y Hx Hy; cbn in *; intuition lia|unfold int64_min; cbn; intuition discriminate]|].
  split; repeat constructor; intros H; vm_compute in H; discriminate H.
Qed.

(* ---- C21 ---- *)
Theorem C21_protocol : forall S (step : callback -> S -> S * option halt) gs s s1,
  gs <> [] -> (forall g, In g gs -> well_typed g) -> takes step (protocol gs) s s1 ->
  observe (parse step gs None s) = (protocol gs ++ [CFinal], fst (step CFinal s1), snd (step CFinal s1)).
Proof. exact no_throw. Qed.
Print Assumptions C21_protocol.
Theorem C21_brackets_alternate : forall gs, neighbours_differ (map fst (join gs)).
Proof. exact join_differ. Qed.
Print Assumptions C21_brackets_alternate.
Theorem C21_no_object_lost : forall gs, flat_map snd (join gs) = flat_map snd gs.
Proof. exact join_objects. Qed.
Print Assumptions C21_no_object_lost.
Theorem C21_objects_inside_brackets : forall S (step : callback -> S -> S * option halt) gs tail s p o q,
  (forall g, In g gs -> well_typed g) ->
  r_trace (fst (parse step gs tail s)) = p ++ CObj o :: q -> open_type p = Some (obj_type o).
Proof. exact objects_bracketed. Qed.
Print Assumptions C21_objects_inside_brackets.
Theorem C21_init_first_final_last : forall S (step : callback -> S -> S * option halt) gs tail s,
  (forall g, In g gs -> well_typed g) -> gs <> [] ->
  let tr := r_trace (fst (parse step gs tail s)) in
  (forall p q, tr = p ++ CInit :: q -> p = []) /\
  (forall p q, tr = p ++ CFinal :: q -> q = []) /\
  (tr = [] \/ tr = [CFinal] \/ exists q, tr = CInit :: q) /\
  (snd (parse step gs tail s) = None -> exists p, tr = p ++ [CFinal]).
Proof. exact init_final_places. Qed.
Print Assumptions C21_init_first_final_last.
(** Also when a handler stops or fails, or the file ends in an error: the handler sees a prefix
    of the protocol, then possibly final. *)
Theorem C21_prefix : forall S (step : callback -> S -> S * option halt) gs tail s tr s0 r,
  (forall g, In g gs -> well_typed g) -> observe (parse step gs tail s) = (tr, s0, r) ->
  exists p q, (gs <> [] -> protocol gs = p ++ q) /\ (gs = [] -> p = []) /\
    (tr = p ++ [CFinal] \/ (tr = p /\ exists h, r = Some h)).
Proof. exact trace_shape. Qed.
Print Assumptions C21_prefix.
(** Finding: for a file without objects final() is called but init() is not. *)
Theorem C21_empty_file_refuted : forall s, exists tr,
  r_trace (fst (parse recorder [] None s)) = tr /\ tr = [CFinal] /\ ~ In CInit tr.
Proof. intros s. exists [CFinal]. repeat split. intros [H|[]]; discriminate H. Qed.
Print Assumptions C21_empty_file_refuted.
Example C21_ex : r_trace (fst (parse recorder [(NODE, [nd 1 1 1]); (NODE, [nd 2 1 1]); (WAY, [wy 1 1 1 [1]])] None [])) =
  [CInit; CBefore NODE; CObj (nd 1 1 1); CObj (nd 2 1 1); CAfter NODE; CBefore WAY; CObj (wy 1 1 1 [1]); CAfter WAY; CFinal].
Proof. reflexivity. Qed.

(* ---- C22 ---- *)
Theorem C22_each_sees_all : forall A B (h1 : callback -> A -> A * option halt) (h2 : callback -> B -> B * option halt) cs a a' b b',
  takes h1 cs a a' -> takes h2 cs b b' -> takes (sequence (on_fst h1) (on_snd h2)) cs (a, b) (a', b').
Proof. exact sequence_alone. Qed.
Print Assumptions C22_each_sees_all.
Theorem C22_first_before_second : forall cs l,
  takes (sequence (tagged_recorder 1) (tagged_recorder 2)) cs l (l ++ flat_map (fun c => [(1%nat, c); (2%nat, c)]) cs).
Proof. exact sequence_order. Qed.
Print Assumptions C22_first_before_second.
(** what an exception does *)
Theorem C22_first_fails : forall A B (h1 : callback -> A -> A * option halt) (h2 : callback -> B -> B * option halt) p c q a a1 a2 b b1 h,
  takes h1 p a a1 -> takes h2 p b b1 -> h1 c a1 = (a2, Some h) ->
  feed (sequence (on_fst h1) (on_snd h2)) (p ++ c :: q) (a, b) = (p ++ [c], (a2, b1), Some h).
Proof. exact sequence_throw1. Qed.
Print Assumptions C22_first_fails.
Theorem C22_second_fails : forall A B (h1 : callback -> A -> A * option halt) (h2 : callback -> B -> B * option halt) p c q a a1 a2 b b1 b2 h,
  takes h1 p a a1 -> takes h2 p b b1 -> h1 c a1 = (a2, None) -> h2 c b1 = (b2, Some h) ->
  feed (sequence (on_fst h1) (on_snd h2)) (p ++ c :: q) (a, b) = (p ++ [c], (a2, b2), Some h).
Proof. exact sequence_throw2. Qed.
Print Assumptions C22_second_fails.
(** A handler that only forwards is as if it was not there. *)
Theorem C22_forward : forall S (next : callback -> S -> S * option halt) cs s,
  feed (stacked next forward_prog) cs (tt, s) = let '(tr, s', h) := feed next cs s in (tr, (tt, s'), h).
Proof. exact @forward_transparent. Qed.
Print Assumptions C22_forward.
(** Finding: if the first handler stops reading, the second one does not see what it would see alone. *)
Theorem C22_stop_refuted : exists gs,
  In (CObj (wy 1 1 1 [])) (r_trace (fst (parse recorder gs None []))) /\
  ~ In (CObj (wy 1 1 1 [])) (snd (r_handler (fst (parse (sequence (on_fst find_bbox) (on_snd recorder)) gs None (bounds_new, []))))).
Proof.
  exists [(NODE, [nd 1 1 1]); (WAY, [wy 1 1 1 []])]. split; [cbn; intuition|]. cbn. intuition discriminate.
Qed.
Print Assumptions C22_stop_refuted.
Example C22_ex : takes recorder [CInit; CBefore NODE; CFinal] [] [CInit; CBefore NODE; CFinal].
Proof. reflexivity. Qed.

(* ---- C23 ---- *)
Theorem C23_forwards_with_end : forall S (next : callback -> S -> S * option halt) runs s s',
  (forall g, In g runs -> well_typed g) ->
  takes next (CInit :: flat_map (fun r => bracket (fst r, ends (snd r))) runs ++ [CFinal]) s s' ->
  takes (stacked next endtime_prog) (CInit :: flat_map bracket runs ++ [CFinal]) (lasts_new, s) (lasts_new, s').
Proof. exact endtime_correct. Qed.
Print Assumptions C23_forwards_with_end.
Theorem C23_following_version : forall os l1 o l2 n,
  history os -> os = l1 ++ o :: l2 -> In n l2 -> obj_id n = obj_id o ->
  (forall x, In x os -> obj_id x = obj_id o -> ~ (obj_version o < obj_version x < obj_version n)) ->
  nth_error (ends os) (List.length l1) = Some (with_endtime o (obj_timestamp n)).
Proof. exact following_version. Qed.
Print Assumptions C23_following_version.
Theorem C23_last_version : forall os l1 o l2,
  history os -> os = l1 ++ o :: l2 -> (forall x, In x os -> obj_id x = obj_id o -> obj_version x <= obj_version o) ->
  nth_error (ends os) (List.length l1) = Some o.
Proof. exact last_version. Qed.
Print Assumptions C23_last_version.
Example C23_ex : history [nd 3 1 10; nd 3 2 20; nd 4 1 15] /\
  map obj_endtime (ends [nd 3 1 10; nd 3 2 20; nd 4 1 15]) = [20; 0; 0].
Proof.
  split; [|reflexivity].
  assert (A : hist_lt (nd 3 1 10) (nd 3 2 20)) by (right; split; [reflexivity|cbn; lia]).
  assert (B : hist_lt (nd 3 1 10) (nd 4 1 15)) by (left; cbn; lia).
  assert (C : hist_lt (nd 3 2 20) (nd 4 1 15)) by (left; cbn; lia).
  unfold history. repeat (constructor; auto).
Qed.

(* ---- C24 ---- *)
Theorem C24_forwards_selected : forall S (next : callback -> S -> S * option halt) from to cs s s',
  takes next (filter (fun c => match c with CObj o => in_range_test from to o | _ => true end) cs) s s' ->
  takes (stacked next (range_prog from to)) cs (tt, s) (tt, s').
Proof. exact range_run. Qed.
Print Assumptions C24_forwards_selected.
Theorem C24_selected_is_intersection : forall from to o,
  from <= to -> (obj_endtime o = 0 \/ obj_timestamp o <= obj_endtime o) ->
  (in_range_test from to o = true <-> intersects from to o).
Proof. exact range_meaning. Qed.
Print Assumptions C24_selected_is_intersection.
(** With EndTime and an instant: the current versions, and those that end exactly at the instant. *)
Theorem C24_instant : forall os t l1 o l2 o',
  history os -> chronological os -> (forall x, In x os -> obj_endtime x = 0) ->
  os = l1 ++ o :: l2 -> nth_error (ends os) (List.length l1) = Some o' ->
  (in_range_test t t o' = true <-> current_at os t o \/ (obj_timestamp o <= t /\ obj_endtime o' = t)).
Proof. exact instant_meaning. Qed.
Print Assumptions C24_instant.
(** Finding: at the very second of an edit, the old and the new version are both forwarded. *)
Theorem C24_at_most_current_refuted : exists os t a b, history os /\ chronological os /\
  In a (ends os) /\ In b (ends os) /\ obj_id a = obj_id b /\ obj_version a <> obj_version b /\
  in_range_test t t a = true /\ in_range_test t t b = true /\
  ~ current_at os t (nd 3 1 10).
Proof.
  exists [nd 3 1 10; nd 3 2 20], 20, (with_endtime (nd 3 1 10) 20), (nd 3 2 20).
  assert (A : hist_lt (nd 3 1 10) (nd 3 2 20)) by (right; split; [reflexivity|cbn; lia]).
  split; [unfold history; repeat (constructor; auto)|]. split.
  { split; [intros o [<-|[<-|[]]]; cbn; lia|].
    intros a b [<-|[<-|[]]] [<-|[<-|[]]] _ H; cbn in *; lia. }
  split; [left; reflexivity|]. split; [right; left; reflexivity|]. split; [reflexivity|]. split; [discriminate|].
  split; [reflexivity|]. split; [reflexivity|].
  intros [_ H]. specialize (H (nd 3 2 20) (or_intror (or_introl eq_refl)) eq_refl). cbn in H. lia.
Qed.
Print Assumptions C24_at_most_current_refuted.
Example C24_ex : intersects 12 18 (with_endtime (nd 3 1 10) 15) /\ ~ intersects 16 18 (with_endtime (nd 3 1 10) 15) /\
  current_at [nd 3 1 10; nd 3 2 20] 15 (nd 3 1 10).
Proof.
  split; [exists 13; cbn; lia|]. split; [intros (t & H); cbn in H; lia|].
  split; [cbn; lia|]. intros x [<-|[<-|[]]] _ H; cbn in *; lia.
Qed.

(* ---- C25 ---- *)
Theorem C25_positions : forall P N (pset : Z -> position -> P -> outcome P) pget (nset : Z -> position -> N -> outcome N) nget
    p0 n0 dflt (domp domn : Z -> Prop),
  store_works pset pget p0 dflt domp -> store_works nset nget n0 dflt domn ->
  forall os, (forall o id, In o os -> In id (used_ids o) -> id_ok domp domn id) ->
  exists st, cfw_run pset pget nset nget os (p0, n0) = Ok (located_stream [] os dflt, st).
Proof. exact @cfw_correct. Qed.
Print Assumptions C25_positions.
Theorem C25_sparse_table_works : forall grow, 0 < grow ->
  store_works (sp_set (V := position)) (sp_get undef_pos) (sp_new grow) undef_pos
    (fun id => 0 <= id /\ id + grow < 18446744073709551616).
Proof. exact sparse_works. Qed.
Print Assumptions C25_sparse_table_works.
Example C25_ex : exists st,
  cfw_run sp_set (sp_get undef_pos) sp_set (sp_get undef_pos) [nd 7 1 1; nd (-7) 4 1; nd 7 2 1; wy 1 1 1 [7; -7; 8]]
    (sp_new 10, sp_new 10) =
  Ok ([nd 7 1 1; nd (-7) 4 1; nd 7 2 1;
       OWay (mkWay (mkAttrs 1 1 0 1 0 (-1) "" true []) [mkWN 7 (mkPos 7 2); mkWN (-7) (mkPos (-7) 4); mkWN 8 undef_pos])], st).
Proof. eexists; reflexivity. Qed.

(* ---- C26 ---- *)
Theorem C26_reads_nodes_only : forall gs ns rest, (forall g, In g gs -> well_typed g) ->
  join gs = (NODE, ns) :: rest ->
  observe (parse find_bbox gs None bounds_new) =
  (CInit :: bracket (NODE, ns) ++ [CFinal], fold_left bounds_extend (node_positions ns) bounds_new, None).
Proof. exact find_bbox_reads. Qed.
Print Assumptions C26_reads_nodes_only.
Theorem C26_smallest_box : forall gs ns rest, (forall g, In g gs -> well_typed g) ->
  join gs = (NODE, ns) :: rest -> ns <> [] -> (forall p, In p (node_positions ns) -> located p) ->
  is_bbox (node_positions ns) (r_handler (fst (parse find_bbox gs None bounds_new))).
Proof. exact find_bbox_box. Qed.
Print Assumptions C26_smallest_box.
(** Finding: a node without a position (a deleted node, say) after one with a position spoils the box. *)
Theorem C26_undefined_refuted : exists gs p b, (forall g, In g gs -> well_typed g) /\
  In p (node_positions (flat_map snd gs)) /\ located p /\
  r_handler (fst (parse find_bbox gs None bounds_new)) = b /\
  ~ is_bbox (filter pos_defined (node_positions (flat_map snd gs))) b.
Proof.
  exists [(NODE, [nd 1 1 1; ONode (mkNode attrs_new undef_pos)])], (mkPos 1 1). eexists.
  split; [intros g [<-|[]]; split; [left; reflexivity|intros o [<-|[<-|[]]]; reflexivity]|].
  split; [left; reflexivity|]. split; [split; cbn; discriminate|]. split; [reflexivity|].
  intros [_ _ (q & Hq & E) _ _]. cbn in Hq, E. destruct Hq as [<-|[]]. discriminate E.
Qed.
Print Assumptions C26_undefined_refuted.
(** Finding: only the first run of nodes counts. *)
Theorem C26_unsorted_refuted : exists gs p, (forall g, In g gs -> well_typed g) /\
  In p (node_positions (flat_map snd gs)) /\ located p /\
  ~ inside (r_handler (fst (parse find_bbox gs None bounds_new))) p.
Proof.
  exists [(NODE, [nd 1 1 1]); (WAY, [wy 1 1 1 []]); (NODE, [nd 9 1 1])], (mkPos 9 1).
  split; [intros g [<-|[<-|[<-|[]]]]; (split; [cbn; unfold object_type; tauto|intros o [<-|[]]; reflexivity])|].
  split; [right; left; reflexivity|]. split; [split; cbn; discriminate|].
  intros [[_ H] _]. vm_compute in H. apply H. reflexivity.
Qed.
Print Assumptions C26_unsorted_refuted.
Example C26_ex : r_handler (fst (parse find_bbox [(NODE, [nd 5 2 1; nd 3 4 1]); (WAY, [wy 1 1 1 []])] None bounds_new)) =
  mkBounds (mkPos 3 2) (mkPos 5 4).
Proof. reflexivity. Qed.

(* ---- C27 ---- *)
Theorem C27_kept_objects_unchanged : forall m rs1 r rs2 a o,
  (forall x, In x (rs1 ++ r :: rs2) -> reading_ok x) ->
  let w := read_all (world_new m) rs1 in
  given w r = Some (a, o) -> held_through a (read_one w r) rs2 ->
  w_mem (read_all (world_new m) (rs1 ++ r :: rs2)) a = o.
Proof. exact kept_never_changes. Qed.
Print Assumptions C27_kept_objects_unchanged.
Theorem C27_pbf : forall t bef fs aft,
  object_type t -> (forall l, incl (bef l) l) -> (forall l a, incl (aft l a) (a :: l)) -> reading_ok (pbf_reading t bef fs aft).
Proof. exact pbf_reading_ok. Qed.
Print Assumptions C27_pbf.
Theorem C27_xml : forall t bef xs aft,
  object_type t -> (forall l, incl (bef l) l) -> (forall l a, incl (aft l a) (a :: l)) ->
  (t = NODE \/ forall f, ~ In (XLonLat f) xs) -> reading_ok (xml_reading t bef xs aft).
Proof. exact xml_reading_ok. Qed.
Print Assumptions C27_xml.
(** Finding: lon/lat attributes on a way or relation move the node read last, even if a handler
    has kept it. *)
Definition keep_all (l : list addr) (a : addr) : list addr := a :: l.
Definition xml_node : reading := xml_reading NODE (fun l => l) [XLonLat (fun _ => mkPos 1 2)] keep_all.
Definition xml_way : reading := xml_reading WAY (fun l => l) [XLonLat (fun _ => mkPos 8 9)] keep_all.
Theorem C27_lonlat_on_way_refuted : exists m a o, honest xml_node /\ honest xml_way /\
  given (world_new m) xml_node = Some (a, o) /\ held_through a (read_one (world_new m) xml_node) [xml_way] /\
  w_mem (read_all (world_new m) [xml_node; xml_way]) a <> o.
Proof.
  exists (fun _ => ONode node_new), 0%nat, (ONode (mkNode attrs_new (mkPos 1 2))).
  split; [split; intros; intros x; auto|]. split; [split; intros; intros x; auto|].
  split; [reflexivity|]. split; [cbn; intuition|]. intros H. vm_compute in H. discriminate H.
Qed.
Print Assumptions C27_lonlat_on_way_refuted.
Example C27_ex : reading_ok xml_node /\ exists o, given (world_new (fun _ => ONode node_new)) xml_node = Some (0%nat, o) /\
  held_through 0%nat (read_one (world_new (fun _ => ONode node_new)) xml_node) [xml_node; xml_node].
Proof.
  split; [apply xml_reading_ok; [left; reflexivity|intros; intros x; auto|intros; intros x; auto|left; reflexivity]|].
  eexists; split; [reflexivity|]. cbn. intuition.
Qed.

(* ---- C54 ---- *)
Theorem C54_stop_is_clean : forall S (step : callback -> S -> S * option halt) gs s p c q s1 s2,
  gs <> [] -> (forall g, In g gs -> well_typed g) ->
  protocol gs = p ++ c :: q -> takes step p s s1 -> step c s1 = (s2, Some (HExn EStopReading)) ->
  observe (parse step gs None s) = (p ++ [c; CFinal], fst (step CFinal s2), snd (step CFinal s2)).
Proof. exact stop_at. Qed.
Print Assumptions C54_stop_is_clean.
Theorem C54_other_exceptions_propagate : forall S (step : callback -> S -> S * option halt) gs s p c q s1 s2 h,
  gs <> [] -> (forall g, In g gs -> well_typed g) ->
  protocol gs = p ++ c :: q -> takes step p s s1 -> step c s1 = (s2, Some h) -> h <> HExn EStopReading ->
  observe (parse step gs None s) = (p ++ [c], s2, Some h).
Proof. exact throw_at. Qed.
Print Assumptions C54_other_exceptions_propagate.
Theorem C54_read_errors_propagate : forall S (step : callback -> S -> S * option halt) gs e s s',
  gs <> [] -> (forall g, In g gs -> well_typed g) -> e <> EStopReading ->
  takes step (protocol_open gs) s s' ->
  observe (parse step gs (Some e) s) = (protocol_open gs, s', Some (HExn e)).
Proof. exact read_error. Qed.
Print Assumptions C54_read_errors_propagate.
Example C54_ex : r_trace (fst (parse find_bbox [(NODE, [nd 1 1 1]); (WAY, [wy 1 1 1 []])] None bounds_new)) =
  [CInit; CBefore NODE; CObj (nd 1 1 1); CAfter NODE; CFinal].
Proof. reflexivity. Qed.
