(** C42 to C44: XML files. *)
From Verif Require Import Base.Prelude Model.Osm Model.Float Model.OsmFile Model.Handler Model.Xml
  Spec.TimeSpec Spec.HandlerSpec Spec.XmlSpec Spec.XmlText Spec.XmlExamples
  Proofs.XmlReadProofs Proofs.XmlFileProofs Proofs.XmlTextProofs Proofs.XmlTheorems
  Spec.NoNumberSpec Proofs.NoNumberProofs.
From Verif Require Model.Pbf.

(* ---- C42: there and back ---- *)
(** The assumption on the libraries is met by a writer and a parser of XML text. *)
Theorem C42_libraries : xml_libraries tw_call tw_free tw_out tw_new xp_parse xp_new.
Proof. exact xml_text_libraries. Qed.
Print Assumptions C42_libraries.
(** The file of a list of objects is a document with one element for each object, in order, which
    describes the object as far as it is kept. *)
Theorem C42_document : forall ft g b os, ft <> FtChange -> Forall in_range os -> bounds_in_range b -> exists bs es,
  xml_calls ft g b os = Ok (WSetup :: calls_of (Elem "osm" [("version", "0.6"); ("generator", g)]%string (bs ++ es))) /\
  Forall2 bounds_element bs (bounds_listed b) /\ Forall2 (fun e o => described false e (kept ft o)) es os.
Proof. exact xml_written. Qed.
Print Assumptions C42_document.
(** What was written is read back, however read() cuts the file into pieces. *)
Theorem C42_roundtrip : forall L E (lib : L -> wcall -> L * bool) free contents l0 (expat : E -> string -> bool -> E * list event * bool) e0,
  xml_libraries lib free contents l0 expat e0 -> forall ft g b os l,
  Forall in_range os -> Forall has_xml_texts os -> bounds_in_range b -> xml_text g ->
  write_xml lib free l0 ft g b os = (l, true, Ok tt) ->
  forall bufs, joined bufs = contents l -> ~ In ""%string bufs ->
  exists st, read_xml expat e0 (map Some bufs) = (st, Ok tt) /\
    x_groups st = announced (map (kept ft) os) /\ x_meta st = Pbf.mkMeta g (kept_bounds b).
Proof. exact @xml_roundtrip. Qed.
Print Assumptions C42_roundtrip.
(** With the writer and the parser of XML text: writing succeeds, and the bytes are read back. *)
Theorem C42_bytes : forall ft g b os, Forall in_range os -> Forall has_xml_texts os -> bounds_in_range b -> xml_text g ->
  exists w, write_xml tw_call tw_free tw_new ft g b os = (w, true, Ok tt) /\
  forall bufs, joined bufs = tw_out w -> ~ In ""%string bufs ->
  exists st, read_xml xp_parse xp_new (map Some bufs) = (st, Ok tt) /\
    x_groups st = announced (map (kept ft) os) /\ x_meta st = Pbf.mkMeta g (kept_bounds b).
Proof. exact xml_text_roundtrip. Qed.
Print Assumptions C42_bytes.
(** No error of the library is passed over before the writer is closed. *)
Theorem C42_errors : forall L (lib : L -> wcall -> L * bool) free l ft g b os r, write_xml lib free l ft g b os = r ->
  snd r = Ok tt -> exists cs l1, xml_calls ft g b os = Ok cs /\ all_succeed lib l cs = Some l1 /\ fst r = free l1.
Proof. exact @xml_write_error. Qed.
Print Assumptions C42_errors.
(** Finding: an error while the rest of the data is written at the end is not noticed. *)
Theorem C42_flush_refuted : exists (lib : tw -> wcall -> tw * bool) free l,
  xml_libraries lib free tw_out tw_new xp_parse xp_new /\
  write_xml lib free tw_new FtOSM "osmium" ex_bounds ex_objects = (l, false, Ok tt) /\ tw_out l = ""%string /\
  snd (read_xml xp_parse xp_new (map Some (pieces 100 0 (tw_out l)))) = Throw ERuntime.
Proof.
  exists tw_call, (fun _ => (tw_new, false)), tw_new. split; [intros x l1 l2 _ _ F; discriminate F|].
  split; [|split; reflexivity]. vm_compute. reflexivity.
Qed.
Print Assumptions C42_flush_refuted.
(** Finding: the name and id of a user with the id 0 or less are not written, nor is the visibility
    in a file that is not a history file. *)
Theorem C42_all_attributes_refuted : exists o o', in_range o /\ has_xml_texts o /\
  x_groups (fst (read_text 100 (xml_file FtOSM "" bounds_new [o]))) = announced [o'] /\
  o_user (obj_attrs o) <> o_user (obj_attrs o') /\ o_uid (obj_attrs o) <> o_uid (obj_attrs o') /\
  o_visible (obj_attrs o) <> o_visible (obj_attrs o').
Proof.
  exists (OWay (mkWay (mkAttrs 1 1 0 0 0 0 "anonymous" false []) [])), (OWay (mkWay (mkAttrs 1 1 0 0 0 (-1) "" true []) [])).
  split; [split; [vm_compute; intuition discriminate|constructor]|].
  split; [split; [apply plain_text; plain_lit|split; [constructor|exact I]]|].
  split; [vm_compute; reflexivity|]. repeat split; discriminate.
Qed.
Print Assumptions C42_all_attributes_refuted.
(** Finding: a time after the year 9999 is written as an empty text, on which reading fails. *)
Theorem C42_year_10000_refuted : exists o, o_timestamp (obj_attrs o) = last_time + 1 /\
  snd (write_xml tw_call tw_free tw_new FtOSM "" bounds_new [o]) = Ok tt /\
  snd (read_text 100 (xml_file FtOSM "" bounds_new [o])) = Throw EInvalidArgument.
Proof.
  exists (OWay (mkWay (mkAttrs 1 1 0 (last_time + 1) 0 1 "" true []) [])). split; [reflexivity|]. split; vm_compute; reflexivity.
Qed.
Print Assumptions C42_year_10000_refuted.
(** Finding: texts with control characters are written without an error into a file that cannot be
    read. *)
Theorem C42_control_characters_refuted : exists o, in_range o /\
  snd (write_xml tw_call tw_free tw_new FtOSM "" bounds_new [o]) = Ok tt /\
  snd (read_text 100 (xml_file FtOSM "" bounds_new [o])) = Throw ERuntime.
Proof.
  exists (OWay (mkWay (mkAttrs 1 1 0 0 0 1 (String (chr 1) "") true []) [])).
  split; [split; [vm_compute; intuition discriminate|constructor]|]. split; vm_compute; reflexivity.
Qed.
Print Assumptions C42_control_characters_refuted.
Example C42_example : Forall in_range ex_objects /\ Forall has_xml_texts ex_objects /\ bounds_in_range ex_bounds /\
  xml_text "osmium" /\ String.length (xml_file FtHistory "osmium" ex_bounds ex_objects) = 1307%nat /\
  x_groups (fst (read_text 17 (xml_file FtHistory "osmium" ex_bounds ex_objects))) = announced ex_objects.
Proof.
  split; [|split; [|split; [|split; [|split]]]].
  - repeat constructor; vm_compute; intuition discriminate.
  - repeat constructor; apply plain_text; plain_lit.
  - intros _. vm_compute. intuition discriminate.
  - apply plain_text. plain_lit.
  - vm_compute. reflexivity.
  - vm_compute. reflexivity.
Qed.

(* ---- C43: change files ---- *)
(** A change file is a list of sections. Each section is not empty, has the name that goes with
    version and visibility of each of its objects, and neighbouring sections have different names;
    the sections hold the objects in order. *)
Theorem C43_sections : forall g b os, Forall in_range os -> bounds_in_range b -> exists bs (secs : list (string * list (xml * object))),
  xml_calls FtChange g b os = Ok (WSetup :: calls_of (Elem "osmChange" [("version", "0.6"); ("generator", g)]%string
    (bs ++ map (fun s => Elem (fst s) [] (map fst (snd s))) secs))) /\
  Forall2 bounds_element bs (bounds_listed b) /\
  flat_map (fun s => map snd (snd s)) secs = os /\
  Forall (fun s => snd s <> [] /\ Forall (fun eo => section_name (snd eo) = fst s /\
    described (negb (o_visible (obj_attrs (snd eo)))) (fst eo) (kept FtChange (snd eo))) (snd s)) secs /\
  alternate (map fst secs).
Proof. exact xml_sections. Qed.
Print Assumptions C43_sections.
(** Change files (and history files) are read back with the visibility of each object. *)
Theorem C43_visibility : forall L E (lib : L -> wcall -> L * bool) free contents l0 (expat : E -> string -> bool -> E * list event * bool) e0,
  xml_libraries lib free contents l0 expat e0 -> forall ft g b os l, ft <> FtOSM ->
  Forall in_range os -> Forall has_xml_texts os -> bounds_in_range b -> xml_text g ->
  write_xml lib free l0 ft g b os = (l, true, Ok tt) ->
  forall bufs, joined bufs = contents l -> ~ In ""%string bufs ->
  exists st, read_xml expat e0 (map Some bufs) = (st, Ok tt) /\
    map (fun o => (obj_id o, o_visible (obj_attrs o))) (flat_map snd (x_groups st)) = map (fun o => (obj_id o, o_visible (obj_attrs o))) os.
Proof. exact @xml_visibility. Qed.
Print Assumptions C43_visibility.
Example C43_example : map section_name ex_objects = ["create"; "modify"; "modify"; "delete"; "create"]%string /\
  Forall in_range ex_objects /\ 
  xml_file FtChange "" bounds_new [ONode (mkNode (mkAttrs 1 1 0 0 0 0 "" true []) undef_pos); OWay (mkWay (mkAttrs 2 5 0 0 0 0 "" false []) []);
    OWay (mkWay (mkAttrs 3 1 0 0 0 0 "" false []) [])] =
  String.concat (String quote "") ["<?xml version='1.0'?><osmChange version="; "0.6"; " generator="; ""; "><create><node id="; "1"; " version="; "1"; "/></create><delete><way id="; "2"; " version="; "5"; "/><way id="; "3"; " version="; "1"; "/></delete></osmChange>"]%string.
Proof. split; [reflexivity|]. split; [repeat constructor; vm_compute; intuition discriminate|]. vm_compute. reflexivity. Qed.

(* ---- C44: reading any document ---- *)
(** Each object element of a document is delivered once, in document order, as it is described by
    its attributes, its children and the delete section around it; generator and bounds are known. *)
Theorem C44_objects : forall E (expat : E -> string -> bool -> E * list event * bool) e text root a kids,
  readable_document root a kids -> parses expat e text (events_of (Elem root a kids)) ->
  forall bufs, joined bufs = text -> ~ In ""%string bufs ->
  exists st os, read_xml expat e (map Some bufs) = (st, Ok tt) /\ x_groups st = announced os /\
    Forall2 (fun de o => described (fst de) (snd de) o) (flat_map (objects_in false) kids) os /\ meta_described root a kids (x_meta st).
Proof. exact @xml_reads. Qed.
Print Assumptions C44_objects.
(** What is announced is handed to the handler, one call for each object. *)
Theorem C44_callbacks : forall os, os <> [] ->
  exists cs, observe (parse recorder (announced os) None []) = (cs, cs, None) /\ filter is_object_call cs = map CObj os.
Proof. exact announced_callbacks. Qed.
Print Assumptions C44_callbacks.
(** Reading ends normally only if every read() worked up to the end of the file and the parser
    accepted all of it. *)
Theorem C44_errors : forall E (expat : E -> string -> bool -> E * list event * bool) e reads st, read_xml expat e reads = (st, Ok tt) ->
  exists bufs es, (reads = map Some bufs \/ exists rest, reads = map Some bufs ++ Some ""%string :: rest) /\ ~ In ""%string bufs /\
    feeds expat e bufs = (es, true) /\ x_events es x_new = (st, Ok tt).
Proof. intros E expat e reads st. exact (xml_read_ok expat reads e x_new st). Qed.
Print Assumptions C44_errors.
(** Files of another version are rejected before anything is handed out. *)
Theorem C44_version : forall E (expat : E -> string -> bool -> E * list event * bool) bufs e root a v es ok,
  root = "osm"%string \/ root = "osmChange"%string -> attr "version" a = Some v -> v <> "0.6"%string -> ~ In ""%string bufs ->
  feeds expat e bufs = (EvStart root a :: es, ok) ->
  exists st, read_xml expat e (map Some bufs) = (st, Throw ERuntime) /\ x_groups st = [].
Proof. intros E expat bufs. exact (version_rejected expat bufs). Qed.
Print Assumptions C44_version.
Example C44_version_example : exists a es, attr "version" a = Some "0.5"%string /\
  feeds (fun (e : unit) s final => (e, if final then [] else [EvStart "osm" a], true)) tt ["x"%string] = (EvStart "osm" a :: es, true).
Proof. exists [("generator", "g"); ("version", "0.5")]%string. eexists. split; reflexivity. Qed.
(** Finding: an element inside of a child of an object makes an assertion fail. *)
Theorem C44_nested_refuted : exists x, writable x /\ snd (x_events (events_of x) x_new) = AssertFail /\
  x = Elem "osm" [("version", "0.6")]%string [Elem "node" [("id", "1")]%string [Elem "tag" [("k", "a"); ("v", "b")]%string [Elem "source" [] []]]].
Proof.
  eexists. split; [|split; [|reflexivity]]; [|reflexivity].
  repeat (constructor; try name; try (split; [name|apply plain_text; plain_lit])); cbn; intuition discriminate.
Qed.
Print Assumptions C44_nested_refuted.
(** Finding: objects inside of elements the reader does not know are delivered all the same, a root
    element of any name is accepted, and of nested delete sections the inner one ends the outer one. *)
Theorem C44_unknown_refuted : exists x os, x = Elem "gpx" [("version", "7")]%string [Elem "comment" [] [Elem "node" [("id", "1")]%string []];
    Elem "delete" [] [Elem "delete" [] []; Elem "way" [("id", "2")]%string []]] /\
  snd (x_events (events_of x) x_new) = Ok tt /\ x_groups (fst (x_events (events_of x) x_new)) = announced os /\
  map obj_id os = [1; 2] /\ map (fun o => o_visible (obj_attrs o)) os = [true; true].
Proof.
  eexists. exists [ONode (mkNode (mkAttrs 1 0 0 0 0 (-1) "" true []) undef_pos); OWay (mkWay (mkAttrs 2 0 0 0 0 (-1) "" true []) [])].
  split; [reflexivity|]. split; [reflexivity|]. split; [vm_compute; reflexivity|]. split; reflexivity.
Qed.
Print Assumptions C44_unknown_refuted.
(** Finding: a second root element inside of the first one makes an assertion fail at its end. *)
Theorem C44_root_in_root_refuted : exists t, snd (x_events (events_of t) x_new) = AssertFail.
Proof. exists (Elem "osm" [] [Elem "osm" [] []]). reflexivity. Qed.
Print Assumptions C44_root_in_root_refuted.
(** Finding: coordinates that are no numbers are not refused; the node is delivered at 0/0. *)
Theorem C44_no_number : forall x y, no_number x -> no_number y ->
  exists st, x_events (events_of (Elem "osm" [] [Elem "node" [("id", "7"); ("lon", x); ("lat", y)]%string []])) x_new = (st, Ok tt) /\
    x_groups st = announced [ONode (mkNode (mkAttrs 7 0 0 0 0 (-1) "" true []) (mkPos 0 0))].
Proof. exact node_without_numbers. Qed.
Print Assumptions C44_no_number.
Example C44_no_number_example : no_number "west" /\ no_number "" /\ no_number " -".
Proof. repeat split; (apply no_digits_no_number; cbn; intuition (subst; first [reflexivity|discriminate])). Qed.
Example C44_example : exists st, let kids := [Elem "bounds" [("minlon", "-1.5"); ("maxlon", "2"); ("minlat", "+0.25"); ("maxlat", "3.00000004")]%string [];
    Elem "create" [] [Elem "node" [("lat", "50.1234567"); ("id", "17"); ("lon", "-8")]%string [Elem "x" [] []; Elem "tag" [("v", "b")]%string []]];
    Elem "delete" [] [Elem "relation" [("id", "-3")]%string [Elem "member" [("type", "way"); ("role", "outer"); ("ref", "9")]%string []]]] in
  readable_document "osmChange" [("generator", "g")]%string kids /\
  x_events (events_of (Elem "osmChange" [("generator", "g")]%string kids)) x_new = (st, Ok tt) /\
  x_groups st = announced [ONode (mkNode (mkAttrs 17 0 0 0 0 (-1) "" true [mkTag "" "b"]) (mkPos (-80000000) 501234567));
    ORel (mkRelation (mkAttrs (-3) 0 0 0 0 (-1) "" false []) [mkMember "w" 9 "outer"])] /\
  x_meta st = Pbf.mkMeta "g" (mkBounds (mkPos (-15000000) 2500000) (mkPos 20000000 30000000)).
Proof.
  eexists. cbv zeta. split; [|split; [vm_compute; reflexivity|split; reflexivity]].
  split; [intros _; split; [repeat constructor; intros []|exact I]|].
  assert (N : forall s n, denotes s n -> in_i64 n -> readable_number s) by (intros s n H1 H2; exists n; split; assumption).
  constructor; [|constructor; [|constructor; [|constructor]]]; cbn.
  - split; [intros _; split; [repeat constructor; cbn; intuition discriminate|]|repeat split; discriminate].
    unfold if_there. cbn. split; [|split; [|split]].
    + apply (frac_readable "-" true "1" "5" 15); [constructor|split; [discriminate|reflexivity]|cbn; lia].
    + apply (frac_readable "+" false "0" "25" 25); [constructor|split; [discriminate|reflexivity]|cbn; lia].
    + apply (int_readable "" false "2" 2); [constructor|split; [discriminate|reflexivity]|lia].
    + apply (frac_readable "" false "3" "00000004" 300000004); [constructor|split; [discriminate|reflexivity]|cbn; lia].
  - split; [discriminate|]. split; [discriminate|]. split; [discriminate|]. split; [discriminate|]. split; [|exact I]. split.
    + split; [repeat constructor; cbn; intuition discriminate|]. unfold if_there. cbn. repeat split; try exact I.
      * apply (N _ 17); [|unfold in_i64; vm_compute; intuition discriminate]. apply (den_pos "" "17" "" 17); [exact I|split; [discriminate|reflexivity]|exact I].
      * apply (int_readable "-" true "8" 8); [constructor|split; [discriminate|reflexivity]|lia].
      * apply (frac_readable "" false "50" "1234567" 501234567); [constructor|split; [discriminate|reflexivity]|cbn; lia].
    + repeat constructor; cbn; intuition discriminate.
  - split; [discriminate|]. split; [discriminate|]. split; [discriminate|]. split; [discriminate|]. split; [|exact I]. split.
    + split; [repeat constructor; cbn; intuition discriminate|]. unfold if_there. cbn. repeat split; try exact I.
      apply (N _ (-3)); [|unfold in_i64; vm_compute; intuition discriminate]. apply (den_minus "" "3" "" 3); [exact I|split; [discriminate|reflexivity]|exact I].
    + constructor; [|constructor]. cbn. split; [reflexivity|]. split; [repeat constructor; cbn; intuition discriminate|]. split; [discriminate|]. intros _ _.
      split; [|vm_compute; discriminate]. apply (N _ 9); [|unfold in_i64; vm_compute; intuition discriminate].
      apply (den_pos "" "9" "" 9); [exact I|split; [discriminate|reflexivity]|exact I].
Qed.
