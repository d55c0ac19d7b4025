(** C65, C66: the osmjs program and what scripts see. *)
From Verif Require Import Base.Prelude Model.Osm Model.Store Model.Handler Model.Assembler Model.OsmFile Model.Reuse Model.Osmjs
  Spec.OsmSpec Spec.HandlerSpec Spec.AssemblerSpec Spec.ReuseSpec Spec.OsmjsSpec
  Props.P_Assembler Proofs.AssemblerProofs Proofs.Handler2Proofs Proofs.OsmjsProofs Proofs.Osmjs2Proofs Proofs.FailProofs.
Local Open Scope Z_scope.

(* ---- C65 ---- *)
(** What the options mean and which command lines are refused. *)
Theorem C65_options : forall readable home os rest, options readable home os rest = options_spec readable home os rest.
Proof. exact options_thm. Qed.
Print Assumptions C65_options.
(** An included file is the first readable one of the search path. *)
Theorem C65_include : forall readable home h f p, home = Some h ->
  (find_include_file readable home f = Go p <->
   exists l1 l2, places h f = l1 ++ p :: l2 /\ readable p = true /\ forall q, In q l1 -> readable q = false).
Proof. exact include_first. Qed.
Print Assumptions C65_include.
(** Only the file named is read, once or twice, the standard input never twice. *)
Theorem C65_reads : forall (S F P N : Type) load boot eval func invoke pset pget nset nget store store_neg build srt contents readable home os rest e,
  @osmjs S F load boot eval func invoke P N pset pget nset nget store store_neg build srt contents readable home os rest = Go e ->
  exists file args, rest = file :: args /\ (e_reads e = [file] \/ (e_reads e = [file; file] /\ file <> "-"%string)).
Proof. exact @reads_thm. Qed.
Print Assumptions C65_reads.
(** There are two ways to undefined behaviour only. *)
Theorem C65_defined : forall (S F P N : Type) load boot eval func invoke pset pget nset nget store store_neg build srt contents readable home os rest,
  @osmjs S F load boot eval func invoke P N pset pget nset nget store store_neg build srt contents readable home os rest = Undef ->
  (home = None /\ exists f, In (OInclude f) os) \/ (In OTwo os /\ ~ In OMulti os /\ last (choose store_of os) LNone = LNone).
Proof. exact @undefined_thm. Qed.
Print Assumptions C65_defined.

(** a script that writes down what is called, over a file with some objects *)
Definition jat (id : Z) (ts : list tag) : attrs := mkAttrs id 1 0 1 0 (-1) "" true ts.
Definition jnode (id x y : Z) : object := ONode (mkNode (jat id []) (mkPos x y)).
Definition jway (id : Z) (ns : list way_node) : object := OWay (mkWay (jat id []) ns).
Definition jrel (id m : Z) : object := ORel (mkRelation (jat id [mkTag "type" "multipolygon"]) [mkMember "w" m ""]).
Definition unlocated (l : list Z) : list way_node := map (fun r => mkWN r undef_pos) l.
Definition jfile : list group :=
  [(NODE, [jnode 1 10 20; jnode 2 30 20]); (NODE, [jnode 3 5 5]); (WAY, [jway 7 (unlocated [1; 2; 3; 1])]); (RELATION, [jrel 9 7])].
Definition log : Type := list (string * this).
Definition logging (f : string) (t : this) (s : log) : log * bool := (s ++ [(f, t)], String.eqb f "node").
Definition run_log (defined : list string) := @osmjs log string (fun f => Some "script"%string) (fun _ _ => []) (fun _ s => Some s)
  (fun n _ => if existsb (String.eqb n) defined then Some n else None) logging (sparse_table (V := position)) (sparse_table (V := position)) sp_set (sp_get undef_pos) sp_set (sp_get undef_pos)
  (fun _ => sp_new 10) (sp_new 10) (fun _ r _ => Ok [r_attrs r]) isort (fun _ _ => (jfile, None)) (fun _ => true) (Some "/home/x"%string).
Definition run_debug := @osmjs bool string (fun f => Some "script"%string) (fun d _ => d) (fun _ s => Some s)
  (fun n _ => None) (fun _ _ s => (s, false)) (sparse_table (V := position)) (sparse_table (V := position)) sp_set (sp_get undef_pos) sp_set (sp_get undef_pos)
  (fun _ => sp_new 10) (sp_new 10) (fun _ r _ => Ok [r_attrs r]) isort (fun _ _ => (jfile, None)) (fun _ => true) (Some "/home/x"%string).

(** Finding: -2 without a location store uses a null pointer. *)
Theorem C65_two_passes_refuted : exists os rest, run_log [] os rest = Undef.
Proof. exists [OJavascript "a.js"; OTwo], ["f.osm"%string]. reflexivity. Qed.
Print Assumptions C65_two_passes_refuted.
(** Finding: -i without HOME makes a string from a null pointer. *)
Theorem C65_home_refuted : exists f, forall readable os rest, options readable None (OInclude f :: os) rest = Undef.
Proof. exists "a"%string. reflexivity. Qed.
Print Assumptions C65_home_refuted.
(** Finding: with -d the scripts do not see debugging turned on: the level is set after the scripts have been given it. *)
Theorem C65_debug_refuted : exists os rest e, In ODebug os /\ run_debug os rest = Go e /\ e_state e = false.
Proof. exists [ODebug; OJavascript "a.js"], ["f.osm"%string]. eexists. split; [now left|]. split; reflexivity. Qed.
Print Assumptions C65_debug_refuted.
Example C65_ex :
  options (fun f => String.eqb f "js/geo.js") (Some "/home/x"%string)
    [OInclude "geo"; OLocation "array"; OJavascript "a.js"; OMulti; OLocation "sparsetable"; OJavascript "b.js"] ["f.osm"; "x"]%string =
  Go (mkCfg true true "b.js" ["js/geo.js"%string] LSparse false true, "f.osm"%string, ["x"%string]) /\
  options (fun _ => true) None [OJavascript "a.js"; OTwo; OLocation "disk"] ["-"%string] = Exit 1 /\
  options (fun _ => true) None [OJavascript "a.js"; OMulti] ["f.osm"%string] = Exit 1.
Proof. repeat split; reflexivity. Qed.

(* ---- C66 ---- *)
(** Included files and the script are run in order; the functions are looked up when all have run. *)
Theorem C66_load : forall (S F : Type) load boot eval func args includes f,
  (forall cb s, @js_new S F load boot eval func args includes f = Go (cb, s) <->
     loads load eval (includes ++ [f]) (boot false args) s /\ load f <> Some ""%string /\ cb = callbacks func s) /\
  (js_new load boot eval func args includes f = Exit 1 \/ exists q, js_new load boot eval func args includes f = Go q).
Proof. exact @load_thm. Qed.
Print Assumptions C66_load.
(** Without a location store the script gets all callbacks for the file. *)
Theorem C66_plain : forall (S F P N : Type) load boot eval func invoke pset pget nset nget store store_neg build srt contents cfg file args cb s gs,
  js_new load boot eval func args (c_includes cfg) (c_js cfg) = Go (cb, s) -> c_two cfg = false -> c_store cfg = LNone ->
  contents 0%nat file = (gs, None) -> gs <> [] -> (forall g, In g gs -> well_typed g) ->
  @passes S F load boot eval func invoke P N pset pget nset nget store store_neg build srt contents cfg file args =
  Go (mkEnd [file] (final_state func invoke s (protocol gs ++ [CFinal])) None).
Proof. exact @plain_thm. Qed.
Print Assumptions C66_plain.
(** With one, the nodes of the ways have the positions of the nodes read before. *)
Theorem C66_located : forall (S F P N : Type) load boot eval func invoke pset pget nset nget store store_neg build srt contents dflt domp domn,
  store_works nset nget store_neg dflt domn -> forall cfg file args cb s gs,
  js_new load boot eval func args (c_includes cfg) (c_js cfg) = Go (cb, s) -> c_two cfg = false -> c_store cfg <> LNone ->
  store_works pset pget (store (c_store cfg)) dflt domp ->
  contents 0%nat file = (gs, None) -> gs <> [] -> (forall g, In g gs -> well_typed g) ->
  (forall o id, In o (flat_map snd gs) -> In id (used_ids o) -> id_ok domp domn id) ->
  @passes S F load boot eval func invoke P N pset pget nset nget store store_neg build srt contents cfg file args =
  Go (mkEnd [file] (final_state func invoke s (located_calls dflt [] (protocol gs ++ [CFinal]))) None).
Proof. exact @located_thm. Qed.
Print Assumptions C66_located.
(** With two passes it gets the areas too. *)
Theorem C66_areas : forall (S F P N : Type) load boot eval func invoke pset pget nset nget store store_neg build srt contents dflt domp domn,
  store_works nset nget store_neg dflt domn -> forall cfg file args cb s gs,
  js_new load boot eval func args (c_includes cfg) (c_js cfg) = Go (cb, s) -> c_two cfg = true -> c_store cfg <> LNone ->
  store_works pset pget (store (c_store cfg)) dflt domp -> sorts srt -> (forall r ms, exists l, build (c_repair cfg) r ms = Ok l) ->
  contents 0%nat file = (gs, None) -> contents 1%nat file = (gs, None) -> gs <> [] -> (forall g, In g gs -> well_typed g) ->
  sorted_file (join gs) -> (forall w, In (OWay w) (flat_map snd gs) -> way_ok w) ->
  (forall o id, In o (flat_map snd gs) -> In id (used_ids o) -> id_ok domp domn id) ->
  let calls := located_calls dflt [] (protocol gs ++ [CFinal]) in
  exists outs,
    @passes S F load boot eval func invoke P N pset pget nset nget store store_neg build srt contents cfg file args =
    Go (mkEnd [file; file] (final_state func invoke s (List.concat outs)) None) /\
    List.length outs = List.length calls /\
    forall p c q, calls = p ++ c :: q -> mp_output (build (c_repair cfg)) (first_relations gs) p c (nth (List.length p) outs []).
Proof. exact @areas_thm. Qed.
Print Assumptions C66_areas.
(** If the file, with relations at its end, cannot be read to the end in the first pass, the exception ends the program; the script has seen nothing. *)
Theorem C66_first_pass : forall (S F P N : Type) load boot eval func invoke pset pget nset nget store store_neg build srt contents cfg file args cb s a b e,
  js_new load boot eval func args (c_includes cfg) (c_js cfg) = Go (cb, s) -> c_two cfg = true -> c_store cfg <> LNone ->
  contents 0%nat file = (a ++ b, Some e) -> e <> EStopReading -> Forall (fun g => fst g <> RELATION) a -> Forall (fun g => fst g = RELATION) b ->
  @passes S F load boot eval func invoke P N pset pget nset nget store store_neg build srt contents cfg file args =
  Go (mkEnd [file] s (Some (HExn e))).
Proof. exact first_pass_fails. Qed.
Print Assumptions C66_first_pass.
Example C66_first_pass_ex : @osmjs log string (fun f => Some "script"%string) (fun _ _ => []) (fun _ s => Some s) (fun n _ => Some n)
  logging (sparse_table (V := position)) (sparse_table (V := position)) sp_set (sp_get undef_pos) sp_set (sp_get undef_pos)
  (fun _ => sp_new 10) (sp_new 10) (fun _ r _ => Ok [r_attrs r]) isort (fun _ _ => (jfile, Some ESystem)) (fun _ => true) (Some "/home/x"%string)
  [OLocation "vector"; OMulti; OJavascript "a.js"] ["f.osm"%string] = Go (mkEnd ["f.osm"%string] [] (Some (HExn ESystem))).
Proof. vm_compute. reflexivity. Qed.
(** Finding: a callback that throws is not noticed: nothing is reported, the run goes on. *)
Theorem C66_exception_refuted : exists os rest e, run_log ["node"; "end"]%string os rest = Go e /\ e_halt e = None /\
  (exists o, In ("node"%string, OnObject o) (e_state e) /\ snd (logging "node" (OnObject o) []) = true) /\ In ("end"%string, OnFunction) (e_state e).
Proof.
  exists [OJavascript "a.js"], ["f.osm"%string]. eexists. split; [vm_compute; reflexivity|]. split; [reflexivity|].
  split; [eexists; split; [now left|reflexivity]|]. cbn. tauto.
Qed.
Print Assumptions C66_exception_refuted.
(** Finding: the object of a callback shows another object when the callback is over: v8 gets a plain pointer, which does not keep it. *)
Theorem C66_kept_refuted : exists m r1 r2 a o, reading_ok r1 /\ reading_ok r2 /\ (forall l b, rd_after r1 l b = l) /\
  given (world_new m) r1 = Some (a, o) /\ w_mem (read_all (world_new m) [r1; r2]) a <> o.
Proof.
  exists (fun _ => ONode node_new), (pbf_reading NODE (fun l => l) [fun _ => jnode 1 10 20] (fun l _ => l)),
    (pbf_reading NODE (fun l => l) [fun _ => jnode 2 30 20] (fun l _ => l)), 0%nat, (jnode 1 10 20).
  assert (K : forall f, reading_ok (pbf_reading NODE (fun l => l) [f] (fun l _ => l))).
  { intros f. split; [left; reflexivity|]. split; [split; intros; intros x; cbn; auto|]. intros x [<-|[]]. reflexivity. }
  split; [apply K|]. split; [apply K|]. split; [reflexivity|]. split; [reflexivity|]. intros H. vm_compute in H. discriminate H.
Qed.
Print Assumptions C66_kept_refuted.
Definition lring : list way_node := [mkWN 1 (mkPos 10 20); mkWN 2 (mkPos 30 20); mkWN 3 (mkPos 5 5); mkWN 1 (mkPos 10 20)].
Example C66_ex :
  run_log ["init"; "node"; "way"; "after_ways"; "relation"; "end"]%string [OLocation "vector"; OJavascript "a.js"] ["f.osm"%string] =
  Go (mkEnd ["f.osm"%string]
    [("init", OnFunction); ("node", OnObject (jnode 1 10 20)); ("node", OnObject (jnode 2 30 20)); ("node", OnObject (jnode 3 5 5));
     ("way", OnObject (jway 7 lring)); ("after_ways", OnFunction); ("relation", OnObject (jrel 9 7)); ("end", OnFunction)]%string None).
Proof. vm_compute. reflexivity. Qed.
Example C66_areas_ex : exists e,
  run_log ["way"; "area"; "end"]%string [OLocation "vector"; OMulti; OJavascript "a.js"] ["f.osm"%string] = Go e /\
  e_reads e = ["f.osm"; "f.osm"]%string /\ e_halt e = None /\
  e_state e = [("area", OnArea (obj_attrs (jrel 9 7))); ("way", OnObject (jway 7 lring)); ("end", OnFunction)]%string.
Proof. eexists. split; [vm_compute; reflexivity|]. repeat split. Qed.
(** the hypotheses of C66_areas hold for this file *)
Example C66_file_ex : sorts isort /\ (forall g, In g jfile -> well_typed g) /\ sorted_file (join jfile) /\
  (forall w, In (OWay w) (flat_map snd jfile) -> way_ok w) /\
  store_works sp_set (sp_get undef_pos) (sp_new 10) undef_pos (fun id => 0 <= id /\ id + 10 < 18446744073709551616) /\
  (forall o id, In o (flat_map snd jfile) -> In id (used_ids o) -> id_ok (fun id => 0 <= id /\ id + 10 < 18446744073709551616) (fun _ => False) id).
Proof.
  split; [exact isort_sorts|]. split.
  { intros g [<-|[<-|[<-|[<-|[]]]]]; (split; [cbn; unfold object_type; tauto|]); intros o H; cbn in H; intuition (subst; reflexivity). }
  split.
  { split; [|split].
    - vm_compute. repeat (apply NoDup_cons; [cbn; intuition discriminate|]). apply NoDup_nil.
    - intros g H. cbn in H. destruct H as [<-|[<-|[<-|[]]]]; (split; [cbn; unfold object_type; tauto|]); intros o H; cbn in H; intuition (subst; reflexivity).
    - vm_compute. repeat (apply NoDup_cons; [cbn; intuition discriminate|]). apply NoDup_nil. }
  split; [intros w H; cbn in H; destruct H as [H|[H|[H|[H|[H|[]]]]]]; try discriminate H; injection H as <-; split; [discriminate|vm_compute; split; discriminate]|].
  split; [apply sparse_works; lia|].
  intros o id H I. cbn in H. destruct H as [<-|[<-|[<-|[<-|[<-|[]]]]]]; cbn in I; split; lia.
Qed.
