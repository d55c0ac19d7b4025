(** C75: extracts from history files. *)
From Verif Require Import Base.Prelude Model.Osm Model.OsmFile Model.Handler Model.Pbf Model.Xml Model.Convert Model.Programs
  Spec.HandlerSpec Spec.ConvertSpec Spec.ProgramsSpec Spec.Protobuf Proofs.Programs2Proofs.
From Verif Require Spec.PbfSpec Spec.PbfExamples Spec.XmlSpec Spec.XmlText Spec.XmlExamples.

(* ---- C75 ---- *)
(** The XML file that is written has the versions of the input file that live between the two
    moments, in the same order. *)
Theorem C75_to_xml : forall L E (lib : L -> wcall -> L * bool) free contents l0 (expat : E -> string -> bool -> E * list event * bool) e0,
  XmlSpec.xml_libraries lib free contents l0 expat e0 -> forall ft g m from to r l,
  file_read r -> fst r <> [] -> Forall XmlSpec.in_range (selected from to r) -> Forall XmlSpec.has_xml_texts (selected from to r) ->
  XmlSpec.bounds_in_range (mt_bounds m) -> XmlSpec.xml_text g ->
  range_to_xml lib free l0 ft g m from to r = (l, true, Ok tt) ->
  forall bufs, XmlSpec.joined bufs = contents l -> ~ In ""%string bufs ->
  let r2 := xml_reading (read_xml expat e0 (map Some bufs)) in
  read_fully r /\ read_fully r2 /\ objects_of r2 = map (XmlSpec.kept ft) (selected from to r).
Proof. exact range_xml. Qed.
Print Assumptions C75_to_xml.
(** So does the PBF file, for each type, and for all together if they are ordered by type. *)
Theorem C75_to_pbf : forall K c m sched from to r file, PbfSpec.codec_ok K -> PbfSpec.default_gran c ->
  file_read r -> fst r <> [] -> Forall PbfSpec.object_ok (selected from to r) -> PbfSpec.few_texts (selected from to r) ->
  PbfSpec.writes_complete sched -> range_to_pbf K c m sched from to r = Ok file ->
  read_fully r /\ exists h ps, PbfSpec.layout K c h ps file /\
    (PbfSpec.readable K c h ps -> forall s, PbfSpec.reads_ok s ->
       let r2 := pbf_reading (read_pbf K (cf_type c) (mkIfd file s)) in
       read_fully r2 /\ (forall t, PbfSpec.only t (fst r2) = ofilter t (map (PbfSpec.kept c) (selected from to r))) /\
       (PbfSpec.type_sorted (selected from to r) -> objects_of r2 = map (PbfSpec.kept c) (selected from to r))).
Proof. exact range_pbf. Qed.
Print Assumptions C75_to_pbf.
(** For a history file and one instant these are the versions that were current then, and those that
    had been current up to this very instant. *)
Theorem C75_instant : forall t r, file_read r -> history_file r ->
  exists sel, picked (valid_at (objects_of r) t) (objects_of r) sel /\
    (forall ft, map (XmlSpec.kept ft) (selected t t r) = map (XmlSpec.kept ft) sel) /\
    (forall c, map (PbfSpec.kept c) (selected t t r) = map (PbfSpec.kept c) sel).
Proof. exact range_instant. Qed.
Print Assumptions C75_instant.
(** Extracts from correct files succeed. *)
Theorem C75_to_xml_succeeds : forall ft g m from to r, file_read r -> read_fully r -> fst r <> [] ->
  Forall XmlSpec.in_range (selected from to r) -> Forall XmlSpec.has_xml_texts (selected from to r) ->
  XmlSpec.bounds_in_range (mt_bounds m) -> XmlSpec.xml_text g ->
  exists w, range_to_xml XmlText.tw_call XmlText.tw_free XmlText.tw_new ft g m from to r = (w, true, Ok tt).
Proof. exact range_xml_works. Qed.
Print Assumptions C75_to_xml_succeeds.
Theorem C75_to_pbf_succeeds : forall K c m sched from to r, PbfSpec.codec_ok K -> PbfSpec.default_gran c ->
  bounds_defined (mt_bounds m) = false \/ PbfSpec.bounds_ok (mt_bounds m) ->
  file_read r -> read_fully r -> fst r <> [] ->
  Forall PbfSpec.object_ok (selected from to r) -> Forall PbfSpec.near_ids (selected from to r) -> Forall PbfSpec.known_members (selected from to r) ->
  PbfSpec.few_texts (selected from to r) -> PbfSpec.writes_complete sched ->
  (exists file, range_to_pbf K c m sched from to r = Ok file) \/ (cf_compress c = true /\ range_to_pbf K c m sched from to r = Throw ERuntime).
Proof. exact range_pbf_works. Qed.
Print Assumptions C75_to_pbf_succeeds.

(* ---- examples and findings ---- *)
Definition hattrs (id ver ts : Z) (vis : bool) : attrs := mkAttrs id ver 7 ts 0 5 "joe"%string vis [].
Definition hn (id ver ts : Z) (vis : bool) : object := ONode (mkNode (hattrs id ver ts vis) (mkPos (id * 1000) ver)).
Definition hw (id ver ts : Z) : object := OWay (mkWay (hattrs id ver ts true) [mkWN 3 undef_pos]).
Definition ex_hist : list object :=
  [hn 3 1 10 true; hn 3 2 20 true; hn 4 1 15 true; hn 5 1 12 true; hn 5 2 18 false; hw 3 1 11; hw 3 2 30].
Definition ex_hist_reading : reading := xml_reading (XmlExamples.read_text 17 (XmlExamples.xml_file FtHistory "x" bounds_new ex_hist)).
(** the program on this file with the instant t and a file of the current data as output *)
Definition ex_extract (ft : ftype) (t : Z) : option (list object) :=
  match range_to_xml XmlText.tw_call XmlText.tw_free XmlText.tw_new ft "x" meta_new t t ex_hist_reading with
  | (w, true, Ok _) => Some (objects_of (xml_reading (XmlExamples.read_text 17 (XmlText.tw_out w))))
  | _ => None
  end.
Lemma ex_hist_objects : objects_of ex_hist_reading = ex_hist.
Proof. vm_compute. reflexivity. Qed.
Lemma ex_hist_read : file_read ex_hist_reading.
Proof. unfold ex_hist_reading, XmlExamples.read_text. apply fr_xml. Qed.
Lemma ex_hist_file : history_file ex_hist_reading.
Proof.
  assert (T : forall t, ofilter t ex_hist = [] \/ ofilter t ex_hist = [hn 3 1 10 true; hn 3 2 20 true; hn 4 1 15 true; hn 5 1 12 true; hn 5 2 18 false] \/
    ofilter t ex_hist = [hw 3 1 11; hw 3 2 30]) by (intros []; cbn; auto).
  split.
  - replace (map fst (join (fst ex_hist_reading))) with [NODE; WAY] by (vm_compute; reflexivity).
    repeat constructor; cbn; intuition discriminate.
  - intros t. rewrite ex_hist_objects. destruct (T t) as [->|[->| ->]]; unfold history; repeat constructor; unfold hist_lt; cbn; lia.
  - intros t. rewrite ex_hist_objects. destruct (T t) as [->|[->| ->]]; split.
    1, 3, 5: intros o I; cbn [In] in I; repeat destruct I as [<-|I]; try contradiction; cbn; lia.
    all: intros a b I J E V; cbn [In] in I, J; repeat destruct I as [<-|I]; try contradiction; repeat destruct J as [<-|J]; try contradiction; cbn in *; lia.
  - intros o. rewrite ex_hist_objects. cbn [In ex_hist]. intros I. repeat destruct I as [<-|I]; try contradiction; reflexivity.
Qed.
Example C75_example : file_read ex_hist_reading /\ objects_of ex_hist_reading = ex_hist /\ history_file ex_hist_reading /\
  ex_extract FtOSM 17 = Some [hn 3 1 10 true; hn 4 1 15 true; hn 5 1 12 true; hw 3 1 11] /\
  exists file, range_to_pbf protobuf PbfExamples.ex_cfg meta_new [] 17 17 ex_hist_reading = Ok file /\
    objects_of (pbf_reading (read_pbf protobuf FtOSM (mkIfd file []))) = [hn 3 1 10 true; hn 4 1 15 true; hn 5 1 12 true; hw 3 1 11].
Proof.
  split; [exact ex_hist_read|]. split; [exact ex_hist_objects|]. split; [exact ex_hist_file|]. split; [vm_compute; reflexivity|].
  eexists. split; [vm_compute; reflexivity|]. vm_compute. reflexivity.
Qed.
(** Finding: in an extract that is not a history file itself, objects that had been deleted at the
    instant are there again. *)
Theorem C75_deleted_refuted : exists r t o o' os, file_read r /\ history_file r /\ In o (objects_of r) /\
  current_at (ofilter (obj_type o) (objects_of r)) t o /\ o_visible (obj_attrs o) = false /\
  ex_extract FtOSM t = Some os /\ In o' os /\ obj_id o' = obj_id o /\ obj_version o' = obj_version o /\ o_visible (obj_attrs o') = true.
Proof.
  exists ex_hist_reading, 25, (hn 5 2 18 false), (hn 5 2 18 true). eexists. split; [exact ex_hist_read|]. split; [exact ex_hist_file|].
  rewrite ex_hist_objects. split; [cbn; auto 9|].
  split; [split; [cbn; lia|]; intros x H I V; cbn [In ofilter filter ex_hist obj_type otype_eqb hn hw] in H; repeat destruct H as [<-|H]; try contradiction; cbn in *; lia|].
  split; [reflexivity|]. split; [vm_compute; reflexivity|]. split; [cbn; auto 9|]. repeat split; reflexivity.
Qed.
Print Assumptions C75_deleted_refuted.
(** Finding: at the instant of a change the extract has the old and the new version. *)
Theorem C75_two_versions_refuted : exists r t a b os, file_read r /\ history_file r /\
  ex_extract FtOSM t = Some os /\ In a os /\ In b os /\ obj_type a = obj_type b /\ obj_id a = obj_id b /\ obj_version a <> obj_version b.
Proof.
  exists ex_hist_reading, 20, (hn 3 1 10 true), (hn 3 2 20 true). eexists. split; [exact ex_hist_read|]. split; [exact ex_hist_file|].
  split; [vm_compute; reflexivity|]. split; [cbn; auto|]. split; [cbn; auto|]. repeat split; discriminate.
Qed.
Print Assumptions C75_two_versions_refuted.
