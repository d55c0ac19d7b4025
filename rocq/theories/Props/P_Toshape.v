(** C70: the program that writes shapefiles.  Statements only, the proofs are in Proofs. *)
From Coq Require Import Reals.
From Flocq Require Import Binary.
From Verif Require Import Base.Prelude Model.Osm Model.Float Model.Geom Model.Store Model.Shapefile Model.Handler Model.Convert Model.Toshape
  Spec.OsmSpec Spec.FloatSpec Spec.HaversineSpec Spec.HandlerSpec Spec.GeomSpec Spec.ShapefileSpec Spec.ToshapeSpec
  Proofs.FloatProofs Proofs.Handler2Proofs Proofs.ToshapeProofs Proofs.Toshape2Proofs Proofs.FailProofs.
Local Open Scope Z_scope.

(* ---- C70 ---- *)
(** If the program reaches its end, every post box has its row and so has every road of at least two different
    positions, in the order of the file and with the right points, id and text; there is no other row.
    Shapelib may fail or not ([lib], [op], [ol] are arbitrary). *)
Theorem C70_rows : forall P N (pset : Z -> position -> P -> outcome P) pget (nset : Z -> position -> N -> outcome N) nget
    p0 n0 dflt (domp domn : Z -> Prop),
  store_works pset pget p0 dflt domp -> store_works nset nget n0 dflt domn -> forall lib op ol gs,
  (forall o id, In o (flat_map snd gs) -> In id (used_ids o) -> id_ok domp domn id) -> forall s0 s,
  toshape_new lib op ol p0 n0 = Ok s0 -> input_read (toshape pset pget nset nget lib op ol) (gs, Ok tt) s0 = (s, None, true) ->
  exported post_box post_box_row (flat_map snd gs) (ly_rows (t_points s)) /\
  exported road road_row (located_stream [] (flat_map snd gs) dflt) (ly_rows (t_lines s)).
Proof. exact @toshape_rows. Qed.
Print Assumptions C70_rows.
(** However it ends: the shapes in the files are those of the rows, no file is too big, and all have the two fields. *)
Theorem C70_files : forall P N (pset : Z -> position -> P -> outcome P) pget (nset : Z -> position -> N -> outcome N) nget
    p0 n0 dflt (domp domn : Z -> Prop),
  store_works pset pget p0 dflt domp -> store_works nset nget n0 dflt domn -> forall lib op ol gs,
  (forall o id, In o (flat_map snd gs) -> In id (used_ids o) -> id_ok domp domn id) ->
  (forall k, op k = true) -> (forall k, ol k = true) -> Forall fits_file (flat_map snd gs) -> forall s0 s r b,
  toshape_new lib op ol p0 n0 = Ok s0 -> input_read (toshape pset pget nset nget lib op ol) (gs, Ok tt) s0 = (s, r, b) ->
  layer_files SHPT_POINT 0 "operator" (t_points s) /\ layer_files SHPT_ARC 1 "type" (t_lines s).
Proof. exact @toshape_files. Qed.
Print Assumptions C70_files.
(** Whatever calls of Shapelib fail: the run ends normally or with a runtime_error. *)
Theorem C70_failing : forall P N (pset : Z -> position -> P -> outcome P) pget (nset : Z -> position -> N -> outcome N) nget
    p0 n0 dflt (domp domn : Z -> Prop),
  store_works pset pget p0 dflt domp -> store_works nset nget n0 dflt domn -> forall lib op ol gs,
  (forall o id, In o (flat_map snd gs) -> In id (used_ids o) -> id_ok domp domn id) ->
  (forall k, op k = true) -> (forall k, ol k = true) -> Forall fits_file (flat_map snd gs) -> forall s0 s r b,
  toshape_new lib op ol p0 n0 = Ok s0 -> input_read (toshape pset pget nset nget lib op ol) (gs, Ok tt) s0 = (s, r, b) ->
  r = None \/ r = Some (HExn ERuntime).
Proof. exact toshape_failing. Qed.
Print Assumptions C70_failing.
(** It reaches its end if Shapelib does not fail and the last node of every highway has a position. *)
Theorem C70_completes : forall P N (pset : Z -> position -> P -> outcome P) pget (nset : Z -> position -> N -> outcome N) nget
    p0 n0 dflt (domp domn : Z -> Prop),
  store_works pset pget p0 dflt domp -> store_works nset nget n0 dflt domn -> forall lib op ol gs,
  (forall o id, In o (flat_map snd gs) -> In id (used_ids o) -> id_ok domp domn id) ->
  (forall k, op k = true) -> (forall k, ol k = true) -> Forall fits_file (flat_map snd gs) -> (forall k, lib k = true) ->
  Forall usable (located_stream [] (flat_map snd gs) dflt) ->
  exists s0 s, toshape_new lib op ol p0 n0 = Ok s0 /\ input_read (toshape pset pget nset nget lib op ol) (gs, Ok tt) s0 = (s, None, true).
Proof. exact @toshape_completes. Qed.
Print Assumptions C70_completes.
(** Otherwise it ends with an exception at the first such highway, and nothing after it is exported. *)
Theorem C70_stopped : forall P N (pset : Z -> position -> P -> outcome P) pget (nset : Z -> position -> N -> outcome N) nget
    p0 n0 dflt (domp domn : Z -> Prop),
  store_works pset pget p0 dflt domp -> store_works nset nget n0 dflt domn -> forall lib op ol gs,
  (forall o id, In o (flat_map snd gs) -> In id (used_ids o) -> id_ok domp domn id) ->
  (forall k, op k = true) -> (forall k, ol k = true) -> Forall fits_file (flat_map snd gs) -> forall l1 o l2, (forall k, lib k = true) ->
  flat_map snd gs = l1 ++ o :: l2 -> Forall usable (located_stream [] l1 dflt) -> ~ usable (locate l1 dflt o) ->
  exists s0 s, toshape_new lib op ol p0 n0 = Ok s0 /\
    input_read (toshape pset pget nset nget lib op ol) (gs, Ok tt) s0 = (s, Some (HExn ERuntime), false) /\
    exported post_box post_box_row l1 (ly_rows (t_points s)) /\ exported road road_row (located_stream [] l1 dflt) (ly_rows (t_lines s)).
Proof. exact @toshape_stopped. Qed.
Print Assumptions C70_stopped.
(** The column of the id holds it exactly up to 2^53. *)
Theorem C70_ids : forall id, Z.abs id <= 9007199254740992 -> d_val (d_of_Z id) = IZR id.
Proof. exact (fun id H => proj1 (d_of_Z_spec id H)). Qed.
Print Assumptions C70_ids.

(* ---- examples ---- *)
Definition always (_ : Z) : bool := true.
Definition works (_ : nat) : bool := true.
Definition snode (id x y : Z) (ts : tag_list) : object := ONode (mkNode (mkAttrs id 1 7 1000000000 0 5 "joe" true ts) (mkPos x y)).
Definition sway (id : Z) (refs : list Z) (ts : tag_list) : object :=
  OWay (mkWay (mkAttrs id 1 7 1000000000 0 5 "joe" true ts) (map (fun r => mkWN r undef_pos) refs)).
(** the state of the program after a file, and how it ended *)
Definition shapes (os : list object) : outcome (tstate (sparse_table (V := position)) (sparse_table (V := position)) * option halt * bool) :=
  let! s0 := toshape_new works always always (sp_new 10) (sp_new 10) in
  Ok (input_read (toshape sp_set (sp_get undef_pos) sp_set (sp_get undef_pos) works always always) ([(NODE, os)], Ok tt) s0).
Definition lines_of (x : outcome (tstate (sparse_table (V := position)) (sparse_table (V := position)) * option halt * bool)) : list (list (double * double)) :=
  match x with Ok (s, _, _) => map row_points (ly_rows (t_lines s)) | _ => [] end.
Definition points_in (x : outcome (tstate (sparse_table (V := position)) (sparse_table (V := position)) * option halt * bool)) : list (list (double * double) * option (list Z)) :=
  match x with Ok (s, _, _) => map (fun r => (row_points r, row_text r)) (ly_rows (t_points s)) | _ => [] end.
Definition how (x : outcome (tstate (sparse_table (V := position)) (sparse_table (V := position)) * option halt * bool)) : option halt * bool :=
  match x with Ok (_, r, b) => (r, b) | _ => (Some HUB, false) end.
Definition sfile_ex : list object :=
  [snode 1 10 20 [mkTag "amenity" "post_box"; mkTag "operator" "RM"]; snode 2 30 40 [mkTag "amenity" "pub"]; snode 3 30 40 [mkTag "amenity" "post_box"];
   sway 5 [1; 2; 3] [mkTag "highway" "path"]; sway 6 [2; 3] [mkTag "highway" "path"]; sway 7 [1; 9] []].
Example C70_ex : how (shapes sfile_ex) = (None, true) /\
  lines_of (shapes sfile_ex) = [[lonlat (mkPos 10 20); lonlat (mkPos 30 40)]] /\
  points_in (shapes sfile_ex) = [([lonlat (mkPos 10 20)], Some [82; 77]); ([lonlat (mkPos 30 40)], None)].
Proof. split; [vm_compute; reflexivity|]. split; lazy -[pos_lon pos_lat d_of_Z]; reflexivity. Qed.
(** the hypotheses of the theorems hold for this file *)
Example C70_hyps_ex : let dom := fun id => 0 <= id /\ id + 10 < 18446744073709551616 in
  store_works sp_set (sp_get undef_pos) (sp_new 10) undef_pos dom /\
  (forall o id, In o sfile_ex -> In id (used_ids o) -> id_ok dom dom id) /\ Forall fits_file sfile_ex /\
  Forall usable (located_stream [] sfile_ex undef_pos).
Proof.
  cbv zeta. split; [apply sparse_works; lia|]. split.
  { intros o id H I. cbn in H. destruct H as [<-|[<-|[<-|[<-|[<-|[<-|[]]]]]]]; cbn in I; split; lia. }
  split; [repeat (apply Forall_cons; [cbn; lia|]); apply Forall_nil|].
  assert (Q : forall n, usable (ONode n)) by (intros n (w & v & X & _); discriminate X).
  repeat (apply Forall_cons; [apply Q|]). 
  apply Forall_cons; [intros _; eexists _, [_; _], _; split; [reflexivity|]; split; [reflexivity|vm_compute; reflexivity]|].
  apply Forall_cons; [intros _; eexists _, [_], _; split; [reflexivity|]; split; [reflexivity|vm_compute; reflexivity]|].
  apply Forall_cons; [|apply Forall_nil]. intros (w & v & X & (l1 & l2 & T & _)). injection X as <-. cbn in T. destruct l1; discriminate T.
Qed.

(** the same when the call that writes the id of the second post box fails *)
Definition failing (k : nat) : bool := negb (k =? 8)%nat.
Definition shapes_failing (os : list object) : outcome (tstate (sparse_table (V := position)) (sparse_table (V := position)) * option halt * bool) :=
  let! s0 := toshape_new failing always always (sp_new 10) (sp_new 10) in
  Ok (input_read (toshape sp_set (sp_get undef_pos) sp_set (sp_get undef_pos) failing always always) ([(NODE, os)], Ok tt) s0).
Example C70_failing_ex : how (shapes_failing sfile_ex) = (Some (HExn ERuntime), false).
Proof. vm_compute. reflexivity. Qed.

(* ---- findings ---- *)
(** A highway whose last node is not in the file ends the program: the roads after it are lost. *)
Theorem C70_missing_last_node_refuted : exists os, how (shapes os) = (Some (HExn ERuntime), false) /\
  lines_of (shapes os) = [] /\ exists l1 l2 w, os = l1 ++ w :: l2 /\ lines_of (shapes (l1 ++ l2)) <> [].
Proof.
  exists [snode 1 10 20 []; snode 2 30 40 []; sway 5 [1; 9] [mkTag "highway" "path"]; sway 6 [1; 2] [mkTag "highway" "path"]].
  split; [vm_compute; reflexivity|]. split; [vm_compute; reflexivity|].
  exists [snode 1 10 20 []; snode 2 30 40 []], [sway 6 [1; 2] [mkTag "highway" "path"]], (sway 5 [1; 9] [mkTag "highway" "path"]).
  split; [reflexivity|]. lazy -[pos_lon pos_lat d_of_Z]. discriminate.
Qed.
Print Assumptions C70_missing_last_node_refuted.
(** So does a highway without nodes. *)
Theorem C70_empty_way_refuted : exists os, how (shapes os) = (Some (HExn ERuntime), false) /\ forall o w, In o os -> o = OWay w -> w_nodes w = [].
Proof.
  exists [sway 5 [] [mkTag "highway" "path"]]. split; [vm_compute; reflexivity|]. intros o w [<-|[]] E. injection E as <-. reflexivity.
Qed.
Print Assumptions C70_empty_way_refuted.
(** A highway with another node that is not in the file is exported with a point outside of the world. *)
Theorem C70_missing_node_refuted : exists os p l, how (shapes os) = (None, true) /\ In l (lines_of (shapes os)) /\ In (lonlat p) l /\ pos_defined p = false /\ p = undef_pos.
Proof.
  exists [snode 1 10 20 []; snode 2 30 40 []; sway 5 [1; 9; 2] [mkTag "highway" "path"]], undef_pos, [lonlat (mkPos 10 20); lonlat undef_pos; lonlat (mkPos 30 40)].
  split; [vm_compute; reflexivity|]. split; [|cbn; auto]. assert (E : lines_of (shapes [snode 1 10 20 []; snode 2 30 40 []; sway 5 [1; 9; 2] [mkTag "highway" "path"]]) =
    [[lonlat (mkPos 10 20); lonlat undef_pos; lonlat (mkPos 30 40)]]) by (lazy -[pos_lon pos_lat d_of_Z]; reflexivity). rewrite E. left. reflexivity.
Qed.
Print Assumptions C70_missing_node_refuted.
(** Different ids can give the same number in the column. *)
Theorem C70_ids_refuted : exists a b, in_i64 a /\ in_i64 b /\ a <> b /\ d_of_Z a = d_of_Z b.
Proof. exists 9007199254740992, 9007199254740993. split; [vm_compute; split; discriminate|]. split; [vm_compute; split; discriminate|]. split; [lia|]. apply Binary.B2FF_inj. vm_compute. reflexivity. Qed.
Print Assumptions C70_ids_refuted.
