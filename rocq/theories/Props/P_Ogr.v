(** C72: the programs that write to a database with OGR.  Statements only, the proofs are in Proofs. *)
From Verif Require Import Base.Prelude Model.Osm Model.Float Model.Geom Model.Area Model.Store Model.Handler Model.Convert Model.Ogr
  Spec.OsmSpec Spec.TagsSpec Spec.HandlerSpec Spec.ToshapeSpec Spec.OgrSpec
  Proofs.Handler2Proofs Proofs.OgrProofs Proofs.Ogr2Proofs.
Local Open Scope Z_scope.

(* ---- C72 ---- *)
(** toogr: all post boxes and all highways are there, in the order of the file and with the right points, id and text, and
    nothing else; unless OGR fails to create a feature: then the program ends at this object, and what is before it is there. *)
Theorem C72_toogr : forall P N (pset : Z -> position -> P -> outcome P) pget (nset : Z -> position -> N -> outcome N) nget lib
    p0 n0 dflt (domp domn : Z -> Prop),
  store_works pset pget p0 dflt domp -> store_works nset nget n0 dflt domn -> forall gs,
  (forall o id, In o (flat_map snd gs) -> In id (used_ids o) -> id_ok domp domn id) -> forall s r b,
  input_read (toogr pset pget nset nget lib) (gs, Ok tt) (toogr_new p0 n0) = (s, r, b) ->
  exists l1 l2, flat_map snd gs = l1 ++ l2 /\
    exported post_box post_box_feature l1 (og_points s) /\ exported highway highway_feature (located_stream [] l1 dflt) (og_lines s) /\
    (forall k, (k < List.length (og_points s) + List.length (og_lines s))%nat -> lib k = true) /\
    ((r = None /\ b = true /\ l2 = []) \/
     (r = Some (HExn EExit) /\ lib (List.length (og_points s) + List.length (og_lines s))%nat = false /\ exists o l3, l2 = o :: l3 /\ (post_box o \/ highway o))).
Proof. exact @toogr_program. Qed.
Print Assumptions C72_toogr.
(** to_postgis: the table has exactly the nodes with a tag other than created_by and odbl, with their position, id and all
    these tags in hstore form; unless OGR fails to create a feature: then the program exits. *)
Theorem C72_postgis : forall lib gs, (forall g, In g gs -> well_typed g) -> Forall clean_tags (flat_map snd gs) -> forall commits table h,
  to_postgis lib commits (gs, Ok tt) = (table, h) ->
  (h = None /\ exported tagged_node node_feature (flat_map snd gs) table) \/ (h = Some (HExn EExit) /\ exists k, lib k = false).
Proof. exact postgis_complete. Qed.
Print Assumptions C72_postgis.
(** However the program ends, with an error in OGR or in the file: if the nodes of the file are in one piece, the
    table has all of them or nothing. *)
Theorem C72_postgis_all_or_nothing : forall lib gs, (forall g, In g gs -> well_typed g) -> Forall clean_tags (flat_map snd gs) -> forall commits e table h,
  nodes_together gs -> (e = Ok tt \/ exists x, e = Throw x /\ x <> EStopReading) ->
  to_postgis lib commits (gs, e) = (table, h) -> table = [] \/ exported tagged_node node_feature (flat_map snd gs) table.
Proof. exact postgis_atomic. Qed.
Print Assumptions C72_postgis_all_or_nothing.

(* ---- examples ---- *)
Definition onode (id x y : Z) (ts : tag_list) : object := ONode (mkNode (mkAttrs id 1 7 1000000000 0 5 "joe" true ts) (mkPos x y)).
Definition oway (id : Z) (refs : list Z) (ts : tag_list) : object :=
  OWay (mkWay (mkAttrs id 1 7 1000000000 0 5 "joe" true ts) (map (fun r => mkWN r undef_pos) refs)).
Definition no_failure (_ : nat) : bool := true.
Definition only (n : nat) (k : nat) : bool := Nat.ltb k n.
Definition ogr_run (lib : nat -> bool) (os : list object) : list (ogr * option string) * list ogr * option halt :=
  let '(s, r, _) := input_read (toogr sp_set (sp_get undef_pos) sp_set (sp_get undef_pos) lib) ([(NODE, os)], Ok tt) (toogr_new (sp_new 10) (sp_new 10)) in
  (map (fun f => (ft_geom f, ft_text f)) (og_points s), map ft_geom (og_lines s), r).
Definition ofile_ex : list object :=
  [onode 1 10 20 [mkTag "amenity" "post_box"; mkTag "operator" "RM"]; onode 2 30 40 [mkTag "amenity" "post_box"];
   oway 5 [1; 2] [mkTag "highway" "path"]; oway 6 [2; 2] [mkTag "highway" "path"]; oway 7 [1; 9] []].
Example C72_ex : ogr_run no_failure ofile_ex =
  ([(OgrPoint (lonlat (mkPos 10 20)), Some "RM"%string); (OgrPoint (lonlat (mkPos 30 40)), None)],
   [OgrLine [lonlat (mkPos 10 20); lonlat (mkPos 30 40)]; OgrLine [lonlat (mkPos 30 40); lonlat (mkPos 30 40)]], None).
Proof. lazy -[pos_lon pos_lat d_of_Z]; reflexivity. Qed.
Example C72_exit_ex : ogr_run (only 3) ofile_ex =
  ([(OgrPoint (lonlat (mkPos 10 20)), Some "RM"%string); (OgrPoint (lonlat (mkPos 30 40)), None)],
   [OgrLine [lonlat (mkPos 10 20); lonlat (mkPos 30 40)]], Some (HExn EExit)).
Proof. lazy -[pos_lon pos_lat d_of_Z]; reflexivity. Qed.
(** the hypotheses hold for this file *)
Example C72_hyps_ex : let dom := fun id => 0 <= id /\ id + 10 < 18446744073709551616 in
  store_works sp_set (sp_get undef_pos) (sp_new 10) undef_pos dom /\ (forall o id, In o ofile_ex -> In id (used_ids o) -> id_ok dom dom id).
Proof.
  cbv zeta. split; [apply sparse_works; lia|]. intros o id H I. cbn in H. destruct H as [<-|[<-|[<-|[<-|[<-|[]]]]]]; cbn in I; split; lia.
Qed.
Definition pfile_ex : list (otype * list object) :=
  [(NODE, [onode 1 10 20 [mkTag "odbl" "clean"]; onode (-2) 30 40 [mkTag "created_by" "JOSM"; mkTag "a""b" "c\d"; mkTag "x" ""]; onode 3 0 0 []]);
   (WAY, [oway 5 [1; 2] [mkTag "highway" "path"]])].
Definition pg_rows (x : list (feature string) * option halt) : list (string * option string) * option halt :=
  (map (fun f => (ft_id f, ft_text f)) (fst x), snd x).
Example C72_postgis_ex : pg_rows (to_postgis no_failure false (pfile_ex, Ok tt)) =
    ([("-2", Some """a\""b""=>""c\\d"",""x""=>""""")]%string, None) /\
  pg_rows (to_postgis (only 0) true (pfile_ex, Ok tt)) = ([], Some (HExn EExit)) /\
  pg_rows (to_postgis no_failure false ([nth 0 pfile_ex (WAY, [])], Throw ERuntime)) = ([], Some (HExn ERuntime)) /\
  fst (pg_rows (to_postgis no_failure false (pfile_ex, Throw ERuntime))) = fst (pg_rows (to_postgis no_failure false (pfile_ex, Ok tt))).
Proof. repeat split; vm_compute; reflexivity. Qed.
Example C72_postgis_hyps_ex : (forall g, In g pfile_ex -> well_typed g) /\ Forall clean_tags (flat_map snd pfile_ex) /\ nodes_together pfile_ex.
Proof.
  split; [intros g [<-|[<-|[]]]; (split; [cbn; unfold object_type; tauto|]); intros o H; cbn in H; intuition (subst; reflexivity)|].
  split; [cbn; repeat (apply Forall_cons || apply Forall_nil); cbn; try exact Logic.I; repeat (apply Forall_cons || apply Forall_nil); cbn; repeat split; discriminate|].
  intros before ns rest g E I. cbn in E. destruct before as [|b [|c [|d l]]]; cbn in E; try discriminate E.
  injection E as _ <-. cbn in I. destruct I as [<-|[]]. discriminate.
Qed.

(* ---- findings ---- *)
(** toogr exports a highway without nodes as a line without points. *)
Theorem C72_empty_way_refuted : exists os, snd (fst (ogr_run no_failure os)) = [OgrLine []] /\ snd (ogr_run no_failure os) = None.
Proof. exists [oway 5 [] [mkTag "highway" "path"]]. split; vm_compute; reflexivity. Qed.
Print Assumptions C72_empty_way_refuted.
(** A highway with nodes that are not in the file is exported with points outside of the world. *)
Theorem C72_missing_node_refuted : exists os p l, snd (ogr_run no_failure os) = None /\ In (OgrLine l) (snd (fst (ogr_run no_failure os))) /\
  In (lonlat p) l /\ pos_defined p = false.
Proof.
  exists [onode 1 10 20 []; oway 5 [1; 9] [mkTag "highway" "path"]], undef_pos, [lonlat (mkPos 10 20); lonlat undef_pos]. split; [vm_compute; reflexivity|].
  split; [|split; [right; left; reflexivity|reflexivity]].
  assert (E : snd (fst (ogr_run no_failure [onode 1 10 20 []; oway 5 [1; 9] [mkTag "highway" "path"]])) = [OgrLine [lonlat (mkPos 10 20); lonlat undef_pos]]) by (lazy -[pos_lon pos_lat d_of_Z]; reflexivity).
  rewrite E. left. reflexivity.
Qed.
Print Assumptions C72_missing_node_refuted.
(** to_postgis exports a node without a position, as in deleted versions, to a point outside of the world. *)
Theorem C72_undefined_refuted : exists o f, to_postgis no_failure false ([(NODE, [o])], Ok tt) = ([f], None) /\ ft_geom f = OgrPoint (lonlat undef_pos) /\ pos_defined undef_pos = false.
Proof.
  exists (ONode (mkNode (mkAttrs 1 1 7 1000000000 0 5 "joe" false [mkTag "a" "b"]) undef_pos)). eexists. split; [|split; [|reflexivity]].
  - lazy -[pos_lon pos_lat d_of_Z]. reflexivity.
  - lazy -[pos_lon pos_lat d_of_Z]. reflexivity.
Qed.
Print Assumptions C72_undefined_refuted.
(** With nodes in several places an error in the file leaves some of them in the table. *)
Theorem C72_partial_table_refuted : exists gs table h, (forall g, In g gs -> well_typed g) /\ to_postgis no_failure false (gs, Throw ERuntime) = (table, h) /\
  List.length table = 1%nat /\ List.length (filter (fun o => match o with ONode n => match o_tags (n_attrs n) with [] => false | _ => true end | _ => false end) (flat_map snd gs)) = 2%nat.
Proof.
  exists [(NODE, [onode 1 10 20 [mkTag "a" "b"]]); (WAY, [oway 5 [1; 2] []]); (NODE, [onode 2 10 20 [mkTag "a" "b"]])]. eexists _, _. split; [|split; [|split]].
  - intros g [<-|[<-|[<-|[]]]]; (split; [cbn; unfold object_type; tauto|]); intros o H; cbn in H; intuition (subst; reflexivity).
  - lazy -[pos_lon pos_lat d_of_Z]. reflexivity.
  - reflexivity.
  - reflexivity.
Qed.
Print Assumptions C72_partial_table_refuted.
