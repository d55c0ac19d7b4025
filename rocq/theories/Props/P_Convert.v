(** C67: conversion of files. *)
From Verif Require Import Base.Prelude Model.Osm Model.OsmFile Model.Handler Model.Pbf Model.Xml Model.Convert
  Spec.HandlerSpec Spec.ConvertSpec Spec.Protobuf Spec.PbfSizeSpec Proofs.Convert2Proofs Proofs.ConvertProofs Proofs.ConvertMain4Proofs.
From Verif Require Spec.PbfSpec Spec.PbfExamples Spec.XmlSpec Spec.XmlText Spec.XmlExamples.
From Verif Require Proofs.XmlTheorems.

(* ---- C67 ---- *)
(** A conversion that ends normally has met the end of the input, whatever the input is. *)
Theorem C67_complete_pbf : forall K c m sched r file, file_read r -> convert_to_pbf K c m sched r = Ok file -> read_fully r.
Proof. exact to_pbf_complete. Qed.
Print Assumptions C67_complete_pbf.
Theorem C67_complete_xml : forall L (lib : L -> wcall -> L * bool) free ft g m l r l' fl, file_read r ->
  convert_to_xml lib free l ft g m r = (l', fl, Ok tt) -> read_fully r.
Proof. exact @to_xml_complete. Qed.
Print Assumptions C67_complete_xml.
(** The XML file made from a file of any format has its objects in the same order. *)
Theorem C67_to_xml : forall L E (lib : L -> wcall -> L * bool) free contents l0 (expat : E -> string -> bool -> E * list event * bool) e0,
  XmlSpec.xml_libraries lib free contents l0 expat e0 -> forall ft g m r l,
  file_read r -> fst r <> [] -> Forall XmlSpec.in_range (objects_of r) -> Forall XmlSpec.has_xml_texts (objects_of r) ->
  XmlSpec.bounds_in_range (mt_bounds m) -> XmlSpec.xml_text g ->
  convert_to_xml lib free l0 ft g m r = (l, true, Ok tt) ->
  forall bufs, XmlSpec.joined bufs = contents l -> ~ In ""%string bufs ->
  let r2 := xml_reading (read_xml expat e0 (map Some bufs)) in
  read_fully r2 /\ objects_of r2 = map (XmlSpec.kept ft) (objects_of r) /\
  x_meta (fst (read_xml expat e0 (map Some bufs))) = mkMeta g (XmlSpec.kept_bounds (mt_bounds m)).
Proof. exact convert_xml. Qed.
Print Assumptions C67_to_xml.
(** The PBF file made from a file of any format has its objects of each type in the same order, and
    all in the same order if nodes come before ways and ways before relations. *)
Theorem C67_to_pbf : forall K c m sched r file, PbfSpec.codec_ok K -> PbfSpec.default_gran c ->
  file_read r -> fst r <> [] -> Forall PbfSpec.object_ok (objects_of r) -> PbfSpec.few_texts (objects_of r) ->
  PbfSpec.writes_complete sched -> convert_to_pbf K c m sched r = Ok file ->
  exists h ps, PbfSpec.layout K c h ps file /\
    (PbfSpec.readable K c h ps -> forall s, PbfSpec.reads_ok s ->
       let r2 := pbf_reading (read_pbf K (cf_type c) (mkIfd file s)) in
       read_fully r2 /\ (forall t, PbfSpec.only t (fst r2) = ofilter t (map (PbfSpec.kept c) (objects_of r))) /\
       (PbfSpec.type_sorted (objects_of r) -> objects_of r2 = map (PbfSpec.kept c) (objects_of r))).
Proof. exact convert_pbf. Qed.
Print Assumptions C67_to_pbf.
(** Conversions of correct files succeed. *)
Theorem C67_to_xml_succeeds : forall ft g m r, file_read r -> read_fully r -> fst r <> [] ->
  Forall XmlSpec.in_range (objects_of r) -> Forall XmlSpec.has_xml_texts (objects_of r) ->
  XmlSpec.bounds_in_range (mt_bounds m) -> XmlSpec.xml_text g ->
  exists w, convert_to_xml XmlText.tw_call XmlText.tw_free XmlText.tw_new ft g m r = (w, true, Ok tt).
Proof. exact convert_xml_works. Qed.
Print Assumptions C67_to_xml_succeeds.
Theorem C67_to_pbf_succeeds : forall K c m sched r, PbfSpec.codec_ok K -> PbfSpec.default_gran c ->
  bounds_defined (mt_bounds m) = false \/ PbfSpec.bounds_ok (mt_bounds m) ->
  file_read r -> read_fully r -> fst r <> [] ->
  Forall PbfSpec.object_ok (objects_of r) -> Forall PbfSpec.near_ids (objects_of r) -> Forall PbfSpec.known_members (objects_of r) ->
  PbfSpec.few_texts (objects_of r) -> PbfSpec.writes_complete sched ->
  (exists file, convert_to_pbf K c m sched r = Ok file) \/ (cf_compress c = true /\ convert_to_pbf K c m sched r = Throw ERuntime).
Proof. exact convert_pbf_works. Qed.
Print Assumptions C67_to_pbf_succeeds.
(** Objects of moderate size (see C79) are converted to PBF, and the file can be read. *)
Theorem C67_ordinary_pbf : forall K c m sched r, PbfSpec.codec_ok K -> wire_format K -> PbfSpec.default_gran c ->
  bounds_defined (mt_bounds m) = false \/ PbfSpec.bounds_ok (mt_bounds m) -> (slen (cf_generator c) <= 1000000)%Z ->
  file_read r -> read_fully r -> fst r <> [] ->
  Forall PbfSpec.object_ok (objects_of r) -> Forall PbfSpec.near_ids (objects_of r) -> Forall PbfSpec.known_members (objects_of r) ->
  PbfSpec.few_texts (objects_of r) -> moderate (objects_of r) -> PbfSpec.writes_complete sched ->
  exists file, convert_to_pbf K c m sched r = Ok file /\ forall s, PbfSpec.reads_ok s ->
    let r2 := pbf_reading (read_pbf K (cf_type c) (mkIfd file s)) in
    read_fully r2 /\ (forall t, PbfSpec.only t (fst r2) = ofilter t (map (PbfSpec.kept c) (objects_of r))) /\
    (PbfSpec.type_sorted (objects_of r) -> objects_of r2 = map (PbfSpec.kept c) (objects_of r)).
Proof. intros. apply ordinary_pbf; assumption. Qed.
Print Assumptions C67_ordinary_pbf.
(** Objects without anything that one of the formats cannot hold come through both unchanged. *)
Theorem C67_there_and_back : forall L E (lib : L -> wcall -> L * bool) free contents l0 (expat : E -> string -> bool -> E * list event * bool) e0 K,
  XmlSpec.xml_libraries lib free contents l0 expat e0 -> PbfSpec.codec_ok K -> forall c g m m2 r l sched file bufs,
  PbfSpec.default_gran c -> cf_meta c = true -> file_read r -> objects_of r <> [] -> Forall (plain (cf_type c)) (objects_of r) ->
  Forall XmlSpec.in_range (objects_of r) -> Forall XmlSpec.has_xml_texts (objects_of r) ->
  XmlSpec.bounds_in_range (mt_bounds m) -> XmlSpec.xml_text g ->
  Forall PbfSpec.object_ok (objects_of r) -> PbfSpec.few_texts (objects_of r) -> PbfSpec.type_sorted (objects_of r) -> PbfSpec.writes_complete sched ->
  convert_to_xml lib free l0 (cf_type c) g m r = (l, true, Ok tt) ->
  XmlSpec.joined bufs = contents l -> ~ In ""%string bufs ->
  convert_to_pbf K c m2 sched (xml_reading (read_xml expat e0 (map Some bufs))) = Ok file ->
  exists h ps, PbfSpec.layout K c h ps file /\
    (PbfSpec.readable K c h ps -> forall s, PbfSpec.reads_ok s ->
       let r2 := pbf_reading (read_pbf K (cf_type c) (mkIfd file s)) in read_fully r2 /\ objects_of r2 = objects_of r).
Proof. exact convert_there_and_back. Qed.
Print Assumptions C67_there_and_back.
(** Finding: a file without objects is not converted: the XML writer fails, the PBF writer leaves an
    empty file without a header. *)
Theorem C67_empty_refuted : exists file r, write_pbf protobuf PbfExamples.ex_cfg meta_new [] [] = Ok file /\
  r = pbf_reading (read_pbf protobuf FtOSM (mkIfd file [])) /\ file_read r /\ read_fully r /\ objects_of r = [] /\
  snd (convert_to_xml XmlText.tw_call XmlText.tw_free XmlText.tw_new FtOSM "" meta_new r) = Throw EXmlWrite /\
  convert_to_pbf protobuf PbfExamples.ex_cfg meta_new [] r = Ok [].
Proof.
  eexists. eexists. split; [vm_compute; reflexivity|]. split; [reflexivity|]. split; [apply fr_pbf|].
  split; [|split; [|split]]; vm_compute; reflexivity.
Qed.
Print Assumptions C67_empty_refuted.
(** Finding: if reading fails, the input file is not closed. *)
Theorem C67_close_refuted : exists r, file_read r /\ exists h s, input_read recorder r [] = (s, Some h, false).
Proof.
  exists (xml_reading (read_xml XmlText.xp_parse XmlText.xp_new [None])). split; [apply fr_xml|].
  eexists. eexists. vm_compute. reflexivity.
Qed.
Print Assumptions C67_close_refuted.

Definition ex_conv_way : object := OWay (mkWay (XmlExamples.ex_attrs 7 2 true) [mkWN 3 undef_pos; mkWN (-9) undef_pos]).
Definition ex_conv : list object :=
  [XmlExamples.ex_node (-5) 1 true; ex_conv_way; XmlExamples.ex_relation 42 4 true].
Definition ex_conv_reading : reading := xml_reading (XmlExamples.read_text 17 (XmlExamples.xml_file FtOSM "x" bounds_new ex_conv)).
Example C67_example : file_read ex_conv_reading /\ objects_of ex_conv_reading = ex_conv /\
  Forall (plain FtOSM) ex_conv /\ PbfSpec.type_sorted ex_conv /\
  exists file w, convert_to_pbf protobuf PbfExamples.ex_cfg meta_new [] ex_conv_reading = Ok file /\
    let r2 := pbf_reading (read_pbf protobuf FtOSM (mkIfd file [RSome 3])) in
    objects_of r2 = ex_conv /\
    convert_to_xml XmlText.tw_call XmlText.tw_free XmlText.tw_new FtOSM "x" meta_new r2 = (w, true, Ok tt) /\
    XmlText.tw_out w = XmlExamples.xml_file FtOSM "x" bounds_new ex_conv.
Proof.
  split; [unfold ex_conv_reading, XmlExamples.read_text; apply fr_xml|]. split; [vm_compute; reflexivity|].
  split; [|split].
  - assert (A : forall id ver, plain_attrs FtOSM (XmlExamples.ex_attrs id ver true)) by (split; [reflexivity|split; [left; cbn; lia|reflexivity]]).
    repeat apply Forall_cons; try apply Forall_nil; (split; [apply A|cbn]); auto; repeat constructor; auto.
  - exists [XmlExamples.ex_node (-5) 1 true], [ex_conv_way], [XmlExamples.ex_relation 42 4 true].
    split; [reflexivity|]. cbn. intuition (subst; reflexivity).
  - eexists. eexists. split; [vm_compute; reflexivity|]. cbv zeta. split; [vm_compute; reflexivity|]. split; vm_compute; reflexivity.
Qed.
