(** C84: the scripts that watch the callbacks. *)
From Verif Require Import Base.Prelude Base.Decimal Model.Osm Model.Store Model.Handler Model.Assembler Model.Osmjs Model.Timing
  Spec.OsmSpec Spec.HandlerSpec Spec.AssemblerSpec Spec.OsmjsSpec Spec.ScriptsSpec Spec.TimingSpec Proofs.TimingProofs Proofs.Timing2Proofs
  Props.P_Assembler Props.P_Osmjs.
Local Open Scope Z_scope.

(** time.js: it tells when the first way and the first relation come, and how many objects there were. *)
Theorem C84_time : forall cs, ~ In CFinal cs -> tm_out (final_state tm_func tm_invoke tm_new (cs ++ [CFinal])) = time_lines (objects_in cs).
Proof. exact time_ok. Qed.
Print Assumptions C84_time.
(** The same for the program that runs it: these are the objects of the file. *)
Theorem C84_time_run : forall (P N : Type) load boot eval pset pget nset nget store store_neg build srt contents cfg file args cb gs,
  js_new load boot eval tm_func args (c_includes cfg) (c_js cfg) = Go (cb, tm_new) -> c_two cfg = false -> c_store cfg = LNone ->
  contents 0%nat file = (gs, None) -> gs <> [] -> (forall g, In g gs -> well_typed g) ->
  exists e, @passes tms string load boot eval tm_func tm_invoke P N pset pget nset nget store store_neg build srt contents cfg file args = Go e /\
    e_halt e = None /\ tm_out (e_state e) = time_lines (flat_map snd gs).
Proof. exact time_run. Qed.
Print Assumptions C84_time_run.
(** callback_test.js: a line for every callback, for objects and areas only the first time. *)
Theorem C84_test : forall cs, exists outs, ct_out (final_state ct_func ct_invoke ct_new cs) = List.concat outs /\ List.length outs = List.length cs /\
  forall p c q, cs = p ++ c :: q -> announced p c (nth (List.length p) outs []).
Proof. exact test_ok. Qed.
Print Assumptions C84_test.
(** For a file of nodes, ways and relations in this order it prints these lines, however many there are. *)
Theorem C84_test_file : forall gs ns ws rs, join gs = [(NODE, ns); (WAY, ws); (RELATION, rs)] -> (forall g, In g (join gs) -> well_typed g /\ snd g <> []) ->
  ct_out (final_state ct_func ct_invoke ct_new (protocol gs ++ [CFinal])) =
  ["✔ init"; "✔ before_nodes"; "✔ node"; "✔ after_nodes"; "✔ before_ways"; "✔ way"; "✔ after_ways"; "✔ before_relations"; "✔ relation"; "✔ after_relations"; "✔ end"]%string.
Proof. exact test_run. Qed.
Print Assumptions C84_test_file.

(** With a location store the scripts print the same. *)
Theorem C84_located : forall (P N : Type) pset pget nset nget store store_neg build srt contents dflt domp domn,
  store_works nset nget store_neg dflt domn -> forall cfg, c_two cfg = false -> c_store cfg <> LNone -> store_works pset pget (store (c_store cfg)) dflt domp ->
  forall file gs, contents 0%nat file = (gs, None) -> gs <> [] -> (forall g, In g gs -> well_typed g) ->
  (forall o id, In o (flat_map snd gs) -> In id (used_ids o) -> id_ok domp domn id) -> forall args cb,
  (forall load boot eval, js_new load boot eval tm_func args (c_includes cfg) (c_js cfg) = Go (cb, tm_new) ->
    exists e, @passes tms string load boot eval tm_func tm_invoke P N pset pget nset nget store store_neg build srt contents cfg file args = Go e /\
      e_halt e = None /\ tm_out (e_state e) = time_lines (flat_map snd gs)) /\
  (forall load boot eval ns ws rs, js_new load boot eval ct_func args (c_includes cfg) (c_js cfg) = Go (cb, ct_new) ->
    join gs = [(NODE, ns); (WAY, ws); (RELATION, rs)] -> ns <> [] -> ws <> [] -> rs <> [] ->
    exists e, @passes cts string load boot eval ct_func ct_invoke P N pset pget nset nget store store_neg build srt contents cfg file args = Go e /\
      e_halt e = None /\ ct_out (e_state e) =
      ["✔ init"; "✔ before_nodes"; "✔ node"; "✔ after_nodes"; "✔ before_ways"; "✔ way"; "✔ after_ways"; "✔ before_relations"; "✔ relation"; "✔ after_relations"; "✔ end"]%string).
Proof. exact located_runs. Qed.
Print Assumptions C84_located.

(** With two passes, as the comment in callback_test.js suggests, the first area comes before or after the first way; it does come if a closed way outside of multipolygons is in the file. *)
Theorem C84_areas : forall (P N : Type) load boot eval pset pget nset nget store store_neg build srt contents dflt domp domn,
  store_works nset nget store_neg dflt domn -> forall cfg file args cb gs ns ws rs,
  js_new load boot eval ct_func args (c_includes cfg) (c_js cfg) = Go (cb, ct_new) -> c_two cfg = true -> c_store cfg <> LNone ->
  store_works pset pget (store (c_store cfg)) dflt domp -> sorts srt -> (forall r ms, exists l, build (c_repair cfg) r ms = Ok l) ->
  contents 0%nat file = (gs, None) -> contents 1%nat file = (gs, None) -> (forall g, In g gs -> well_typed g) ->
  sorted_file (join gs) -> (forall w, In (OWay w) (flat_map snd gs) -> way_ok w) ->
  (forall o id, In o (flat_map snd gs) -> In id (used_ids o) -> id_ok domp domn id) ->
  join gs = [(NODE, ns); (WAY, ws); (RELATION, rs)] -> ns <> [] -> ws <> [] -> rs <> [] ->
  exists e mid,
    @passes cts string load boot eval ct_func ct_invoke P N pset pget nset nget store store_neg build srt contents cfg file args = Go e /\ e_halt e = None /\
    ct_out (e_state e) = ["✔ init"; "✔ before_nodes"; "✔ node"; "✔ after_nodes"; "✔ before_ways"]%string ++ mid ++
      ["✔ after_ways"; "✔ before_relations"; "✔ relation"; "✔ after_relations"; "✔ end"]%string /\
    (mid = ["✔ way"] \/ mid = ["✔ area"; "✔ way"] \/ mid = ["✔ way"; "✔ area"])%string /\
    ((exists w, In (OWay w) ws /\ area_shaped w /\ ~ way_in (first_relations gs) w) -> In "✔ area"%string mid).
Proof. exact areas_run. Qed.
Print Assumptions C84_areas.

Definition tattrs (id : Z) : attrs := mkAttrs id 1 7 1000000000 0 5 "joe" true [].
Definition tnode (id : Z) : object := ONode (mkNode (tattrs id) (mkPos 10 20)).
Definition tway (id : Z) : object := OWay (mkWay (tattrs id) []).
Definition trel (id : Z) : object := ORel (mkRelation (tattrs id) []).
Definition tfile : list (otype * list object) := [(NODE, [tnode 1]); (NODE, [tnode 2]); (WAY, [tway 1; tway 2]); (RELATION, [trel 1])].
Example C84_time_ex : time_lines (flat_map snd (tfile ++ [(WAY, [tway 3])])) = ["first way"; "first relation"; "nodes: 2  ways: 3  relations: 1"]%string.
Proof. vm_compute. reflexivity. Qed.
(** the program with this script *)
Example C84_run_ex : exists e, @passes tms string (fun _ => Some "x"%string) (fun _ _ => tm_new) (fun _ s => Some s) tm_func tm_invoke unit unit
    (fun _ _ s => Ok s) (fun _ _ => UB) (fun _ _ s => Ok s) (fun _ _ => UB) (fun _ => tt) tt (fun _ _ _ => UB) (fun l => l)
    (fun _ _ => (tfile, None)) (mkCfg false false "time.js" [] LNone false false) "a.osm" [] = Go e /\
  tm_out (e_state e) = ["first way"; "first relation"; "nodes: 2  ways: 2  relations: 1"]%string.
Proof. eexists. split; vm_compute; reflexivity. Qed.
Example C84_test_ex : exists ns ws rs, join tfile = [(NODE, ns); (WAY, ws); (RELATION, rs)] /\ forall g, In g (join tfile) -> well_typed g /\ snd g <> [].
Proof.
  exists [tnode 1; tnode 2], [tway 1; tway 2], [trel 1]. split; [reflexivity|]. intros g H.
  cbn in H. destruct H as [<-|[<-|[<-|[]]]]; (split; [split; [unfold object_type; cbn [fst]; tauto|intros o I; cbn in I; repeat (destruct I as [<-|I]; [reflexivity|]); destruct I]|discriminate]).
Qed.
(** areas, and a file that is not sorted *)
Example C84_unsorted_ex : ct_out (final_state ct_func ct_invoke ct_new
    [CInit; CBefore WAY; CObj (tway 1); CArea (tattrs 2); CObj (tway 2); CArea (tattrs 4); CAfter WAY; CBefore NODE; CObj (tnode 1); CAfter NODE; CBefore WAY; CObj (tway 3); CAfter WAY; CFinal]) =
  ["✔ init"; "✔ before_ways"; "✔ way"; "✔ area"; "✔ after_ways"; "✔ before_nodes"; "✔ node"; "✔ after_nodes"; "✔ before_ways"; "✔ after_ways"; "✔ end"]%string.
Proof. vm_compute. reflexivity. Qed.
(** the program with callback_test.js and a location store *)
Example C84_located_ex : exists e, @passes cts string (fun _ => Some "x"%string) (fun _ _ => ct_new) (fun _ s => Some s) ct_func ct_invoke
    (sparse_table (V := position)) (sparse_table (V := position)) sp_set (sp_get undef_pos) sp_set (sp_get undef_pos)
    (fun _ => sp_new 10) (sp_new 10) (fun _ _ _ => UB) (fun l => l)
    (fun _ _ => (tfile, None)) (mkCfg false false "callback_test.js" [] LSparse false false) "a.osm" [] = Go e /\
  List.length (ct_out (e_state e)) = 11%nat /\ last (ct_out (e_state e)) ""%string = "✔ end"%string.
Proof. eexists. split; [vm_compute; reflexivity|]. split; vm_compute; reflexivity. Qed.
(** two passes over the file of C66_file_ex, for which the hypotheses hold; its area is completed by the first way *)
Example C84_areas_ex : (exists ns ws rs, join jfile = [(NODE, ns); (WAY, ws); (RELATION, rs)] /\ ns <> [] /\ ws <> [] /\ rs <> []) /\
  exists e, @passes cts string (fun _ => Some "x"%string) (fun _ _ => ct_new) (fun _ s => Some s) ct_func ct_invoke
    (sparse_table (V := position)) (sparse_table (V := position)) sp_set (sp_get undef_pos) sp_set (sp_get undef_pos)
    (fun _ => sp_new 10) (sp_new 10) (fun _ r _ => Ok [r_attrs r]) isort
    (fun _ _ => (jfile, None)) (mkCfg true true "callback_test.js" [] LSparse false true) "a.osm" [] = Go e /\
  ct_out (e_state e) = ["✔ init"; "✔ before_nodes"; "✔ node"; "✔ after_nodes"; "✔ before_ways"; "✔ area"; "✔ way"; "✔ after_ways"; "✔ before_relations"; "✔ relation"; "✔ after_relations"; "✔ end"]%string.
Proof.
  split; [eexists _, _, _; split; [reflexivity|repeat split; discriminate]|].
  eexists. split; [vm_compute; reflexivity|]. vm_compute. reflexivity.
Qed.
