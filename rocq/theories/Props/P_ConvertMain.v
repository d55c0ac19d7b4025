(** C78: the program osmium_convert. *)
From Verif Require Import Base.Prelude Model.Osm Model.OsmFile Model.Handler Model.Pbf Model.Xml Model.Progress Model.Convert Model.ConvertMain
  Spec.HandlerSpec Spec.OsmFileSpec Spec.ConvertSpec Spec.ConvertMainSpec Spec.PbfSizeSpec
  Proofs.OsmFileProofs Proofs.ConvertMainProofs Proofs.ConvertMain2Proofs Proofs.ConvertMain3Proofs Proofs.ConvertMain4Proofs Proofs.FailProofs.
From Verif Require Model.Ogr.
From Verif Require Spec.PbfSpec Spec.XmlSpec Spec.XmlText Proofs.PbfSizeProofs Proofs.PbfTheorems.

(** A run that ends normally has read all of its input without an error, whatever the libraries, the
    helpers and the system do. *)
Theorem C78_complete : forall L E (v : environment L E) o w w' n1 te1 n2 te2,
  co_args o = [n1; n2] -> given_as n1 (co_from o) te1 -> given_as n2 (co_to o) te2 -> disk_name n2 -> n1 <> n2 ->
  convert_main v o w = (w', Ok tt) -> exists l, load v (file_of n1 te1) w = Ok l /\ read_fully (ld_reading l).
Proof. intros. eapply complete; eassumption. Qed.
Print Assumptions C78_complete.
(** Whatever happens, no file but the output changes; with too many arguments none changes. *)
Theorem C78_untouched : forall L E (v : environment L E) o w n,
  n <> of_name (convert_file (nth 1 (co_args o) ""%string) (co_to o)) \/ (2 < List.length (co_args o))%nat ->
  wd_files (fst (convert_main v o w)) n = wd_files w n.
Proof. intros. apply main_files. assumption. Qed.
Print Assumptions C78_untouched.
(** If the output, not compressed, cannot be created, or the input does not exist, the program ends with a SystemError; in the first case nothing has changed. *)
Theorem C78_no_output : forall L E (v : environment L E) o w n1 n2 te2, co_args o = [n1; n2] -> given_as n2 (co_to o) te2 -> disk_name n2 ->
  snd te2 = FePBF \/ snd te2 = FeXML -> ev_creates v n2 = false -> convert_main v o w = (w, Throw ESystem).
Proof. exact @no_output. Qed.
Print Assumptions C78_no_output.
Theorem C78_no_input : forall L E (v : environment L E) o w n1 te1 n2 te2,
  co_args o = [n1; n2] -> given_as n1 (co_from o) te1 -> given_as n2 (co_to o) te2 -> disk_name n1 -> disk_name n2 ->
  snd te1 = FePBF \/ snd te1 = FeXML -> n1 <> n2 -> wd_files w n1 = None ->
  snd (convert_main v o w) = Throw ESystem.
Proof. exact @no_input. Qed.
Print Assumptions C78_no_input.
(** Converted to XML, compressed or not, and read again, the file has the objects of the input (with
    what the format keeps) and the bounds known at the start. *)
Theorem C78_to_xml : forall L E (v : environment L E) o w w' n1 te1 n2 ft e l m, works v ->
  co_args o = [n1; n2] -> given_as n1 (co_from o) te1 -> given_as n2 (co_to o) (ft, e) -> e <> FePBF -> disk_name n2 -> n1 <> n2 ->
  load v (file_of n1 te1) w = Ok l -> ld_init l = Some m ->
  Forall XmlSpec.in_range (objects_of (ld_reading l)) -> Forall XmlSpec.has_xml_texts (objects_of (ld_reading l)) ->
  XmlSpec.bounds_in_range (mt_bounds m) ->
  convert_main v o w = (w', Ok tt) ->
  read_fully (ld_reading l) /\
  exists l2, load v (file_of n2 (ft, e)) w' = Ok l2 /\ read_fully (ld_reading l2) /\
    objects_of (ld_reading l2) = map (XmlSpec.kept ft) (objects_of (ld_reading l)) /\
    ld_meta l2 = mkMeta "osmium_convert" (XmlSpec.kept_bounds (mt_bounds m)).
Proof. intros. eapply convert_to_xml_file; eassumption. Qed.
Print Assumptions C78_to_xml.
(** Converted to PBF and read again, the file has for each type of object the objects of the input (all
    of them in order if the input is sorted by type) and almost the bounds known at the start. *)
Theorem C78_to_pbf : forall L E (v : environment L E) o w w' n1 te1 n2 ft l m, works v ->
  co_args o = [n1; n2] -> given_as n1 (co_from o) te1 -> given_as n2 (co_to o) (ft, FePBF) -> disk_name n2 -> n1 <> n2 ->
  load v (file_of n1 te1) w = Ok l -> ld_init l = Some m ->
  Forall PbfSpec.object_ok (objects_of (ld_reading l)) -> PbfSpec.few_texts (objects_of (ld_reading l)) ->
  convert_main v o w = (w', Ok tt) ->
  read_fully (ld_reading l) /\
  exists file h ps, wd_files w' n2 = Some file /\ PbfSpec.layout (ev_codec v) (pbf_defaults ft) h ps file /\
    (PbfSpec.readable (ev_codec v) (pbf_defaults ft) h ps ->
     exists l2, load v (file_of n2 (ft, FePBF)) w' = Ok l2 /\ read_fully (ld_reading l2) /\
       (forall t, PbfSpec.only t (fst (ld_reading l2)) = ofilter t (map (PbfSpec.kept (pbf_defaults ft)) (objects_of (ld_reading l)))) /\
       (PbfSpec.type_sorted (objects_of (ld_reading l)) -> objects_of (ld_reading l2) = map (PbfSpec.kept (pbf_defaults ft)) (objects_of (ld_reading l))) /\
       mt_generator (ld_meta l2) = "osmium_convert"%string /\
       (bounds_defined (mt_bounds m) = false -> mt_bounds (ld_meta l2) = bounds_new) /\
       (PbfSpec.bounds_ok (mt_bounds m) ->
          PbfSpec.pos_almost (bottom_left (mt_bounds m)) (bottom_left (mt_bounds (ld_meta l2))) /\
          PbfSpec.pos_almost (top_right (mt_bounds m)) (top_right (mt_bounds (ld_meta l2))))).
Proof. intros. eapply convert_to_pbf_file; eassumption. Qed.
Print Assumptions C78_to_pbf.
(** The same on standard output: nothing else is mixed into the data if it is not a terminal. *)
Theorem C78_stdout_xml : forall L E (v : environment L E) o w w' n2 te1 ft l m, works v -> ev_tty v = false ->
  nth 1 (co_args o) ""%string = n2 -> std_name n2 ->
  given_as (nth 0 (co_args o) ""%string) (co_from o) te1 -> given_as n2 (co_to o) (ft, FeXML) ->
  load v (file_of (nth 0 (co_args o) ""%string) te1) w = Ok l -> ld_init l = Some m ->
  Forall XmlSpec.in_range (objects_of (ld_reading l)) -> Forall XmlSpec.has_xml_texts (objects_of (ld_reading l)) ->
  XmlSpec.bounds_in_range (mt_bounds m) ->
  convert_main v o w = (w', Ok tt) ->
  read_fully (ld_reading l) /\
  exists data, wd_stdout w' = wd_stdout w ++ data /\
    let l2 := read_bytes v (file_of "" (ft, FeXML)) data in
    read_fully (ld_reading l2) /\
    objects_of (ld_reading l2) = map (XmlSpec.kept ft) (objects_of (ld_reading l)) /\
    ld_meta l2 = mkMeta "osmium_convert" (XmlSpec.kept_bounds (mt_bounds m)).
Proof. intros. eapply convert_to_stdout_xml; eassumption. Qed.
Print Assumptions C78_stdout_xml.
Theorem C78_stdout_pbf : forall L E (v : environment L E) o w w' n2 te1 ft l m, works v -> ev_tty v = false ->
  nth 1 (co_args o) ""%string = n2 -> std_name n2 ->
  given_as (nth 0 (co_args o) ""%string) (co_from o) te1 -> given_as n2 (co_to o) (ft, FePBF) ->
  load v (file_of (nth 0 (co_args o) ""%string) te1) w = Ok l -> ld_init l = Some m ->
  Forall PbfSpec.object_ok (objects_of (ld_reading l)) -> PbfSpec.few_texts (objects_of (ld_reading l)) ->
  convert_main v o w = (w', Ok tt) ->
  read_fully (ld_reading l) /\
  exists data h ps, wd_stdout w' = wd_stdout w ++ data /\ PbfSpec.layout (ev_codec v) (pbf_defaults ft) h ps data /\
    (PbfSpec.readable (ev_codec v) (pbf_defaults ft) h ps ->
     let l2 := read_bytes v (file_of "" (ft, FePBF)) data in
     read_fully (ld_reading l2) /\
     (forall t, PbfSpec.only t (fst (ld_reading l2)) = ofilter t (map (PbfSpec.kept (pbf_defaults ft)) (objects_of (ld_reading l))))).
Proof. intros. eapply convert_to_stdout_pbf; eassumption. Qed.
Print Assumptions C78_stdout_pbf.
(** A readable input with objects that fit is converted. *)
Theorem C78_xml_succeeds : forall E (v : environment XmlText.tw E) o w n1 te1 n2 ft e l m,
  ev_lib v = XmlText.tw_call -> ev_free v = XmlText.tw_free -> ev_l0 v = XmlText.tw_new -> ev_tty v = false ->
  co_args o = [n1; n2] -> given_as n1 (co_from o) te1 -> given_as n2 (co_to o) (ft, e) -> e <> FePBF -> disk_name n2 -> n1 <> n2 ->
  ev_creates v n2 = true -> (forall e b, snd (ev_zip v e b) = true) ->
  load v (file_of n1 te1) w = Ok l -> ld_init l = Some m -> read_fully (ld_reading l) ->
  Forall XmlSpec.in_range (objects_of (ld_reading l)) -> Forall XmlSpec.has_xml_texts (objects_of (ld_reading l)) -> XmlSpec.bounds_in_range (mt_bounds m) ->
  exists w', convert_main v o w = (w', Ok tt).
Proof. intros. eapply xml_conversion_succeeds; eassumption. Qed.
Print Assumptions C78_xml_succeeds.
Theorem C78_pbf_succeeds : forall L E (v : environment L E) o w n1 te1 n2 ft l m, works v -> ev_tty v = false ->
  co_args o = [n1; n2] -> given_as n1 (co_from o) te1 -> given_as n2 (co_to o) (ft, FePBF) -> disk_name n2 -> n1 <> n2 ->
  ev_creates v n2 = true -> (forall e b, snd (ev_zip v e b) = true) ->
  load v (file_of n1 te1) w = Ok l -> ld_init l = Some m -> read_fully (ld_reading l) ->
  bounds_defined (mt_bounds m) = false \/ PbfSpec.bounds_ok (mt_bounds m) ->
  Forall PbfSpec.object_ok (objects_of (ld_reading l)) -> Forall PbfSpec.near_ids (objects_of (ld_reading l)) ->
  Forall PbfSpec.known_members (objects_of (ld_reading l)) -> PbfSpec.few_texts (objects_of (ld_reading l)) ->
  (exists w', convert_main v o w = (w', Ok tt)) \/ snd (convert_main v o w) = Throw ERuntime.
Proof. intros. eapply pbf_conversion_succeeds; eassumption. Qed.
Print Assumptions C78_pbf_succeeds.
(** Objects of moderate size (see C79) are converted to PBF, and the file can be read. *)
Theorem C78_ordinary_pbf : forall L E (v : environment L E) o w n1 te1 n2 ft l m, works v -> wire_format (ev_codec v) -> ev_tty v = false ->
  co_args o = [n1; n2] -> given_as n1 (co_from o) te1 -> given_as n2 (co_to o) (ft, FePBF) -> disk_name n2 -> n1 <> n2 ->
  ev_creates v n2 = true ->
  load v (file_of n1 te1) w = Ok l -> ld_init l = Some m -> read_fully (ld_reading l) ->
  bounds_defined (mt_bounds m) = false \/ PbfSpec.bounds_ok (mt_bounds m) ->
  Forall PbfSpec.object_ok (objects_of (ld_reading l)) -> Forall PbfSpec.near_ids (objects_of (ld_reading l)) ->
  Forall PbfSpec.known_members (objects_of (ld_reading l)) -> PbfSpec.few_texts (objects_of (ld_reading l)) -> moderate (objects_of (ld_reading l)) ->
  exists w' l2, convert_main v o w = (w', Ok tt) /\ load v (file_of n2 (ft, FePBF)) w' = Ok l2 /\ read_fully (ld_reading l2) /\
    (forall t, PbfSpec.only t (fst (ld_reading l2)) = ofilter t (map (PbfSpec.kept (pbf_defaults ft)) (objects_of (ld_reading l)))) /\
    (PbfSpec.type_sorted (objects_of (ld_reading l)) -> objects_of (ld_reading l2) = map (PbfSpec.kept (pbf_defaults ft)) (objects_of (ld_reading l))) /\
    mt_generator (ld_meta l2) = "osmium_convert"%string /\
    (bounds_defined (mt_bounds m) = false -> mt_bounds (ld_meta l2) = bounds_new) /\
    (PbfSpec.bounds_ok (mt_bounds m) ->
       PbfSpec.pos_almost (bottom_left (mt_bounds m)) (bottom_left (mt_bounds (ld_meta l2))) /\
       PbfSpec.pos_almost (top_right (mt_bounds m)) (top_right (mt_bounds (ld_meta l2)))).
Proof. intros. eapply ordinary_converted; eassumption. Qed.
Print Assumptions C78_ordinary_pbf.
(** The same data on standard input and in a file is converted in the same way. *)
Theorem C78_stdin : forall L E (v : environment L E) o o' w n n' n2 te te2,
  co_args o = [n; n2] -> co_args o' = [n'; n2] -> co_to o = co_to o' ->
  std_name n -> disk_name n' -> n2 <> n' -> given_as n (co_from o) te -> given_as n' (co_from o') te -> given_as n2 (co_to o) te2 ->
  snd te = FePBF \/ snd te = FeXML -> wd_files w n' = Some (wd_stdin w) ->
  convert_main v o w = convert_main v o' w.
Proof. intros. eapply stdin_same; eassumption. Qed.
Print Assumptions C78_stdin.
(** The bounds known at the start: those of the bounds elements in front of the first object; those of
    the header if a PBF file begins with it. *)
Theorem C78_bounds_xml : forall L E (v : environment L E) f d root a kids, works v -> of_enc f <> FePBF -> XmlSpec.readable_document root a kids ->
  XmlSpec.parses (ev_expat v) (ev_e0 v) (text_of d) (XmlSpec.events_of (XmlSpec.Elem root a kids)) -> snd (early_all kids) = true ->
  exists m, ld_init (read_bytes v f d) = Some m /\ meta_of root a (fst (early_all kids)) m.
Proof. intros. apply early_bounds; assumption. Qed.
Print Assumptions C78_bounds_xml.
Theorem C78_bounds_pbf : forall L E (v : environment L E) f d bs fs tail m, works v -> of_enc f = FePBF ->
  Forall2 (PbfSpec.blob_bytes (ev_codec v)) (("OSMHeader"%string, d) :: bs) fs -> (List.length tail < 4)%nat -> ~ In "OSMHeader"%string (map fst bs) ->
  ld_init (read_bytes v f (List.concat fs ++ tail)) = Some m -> m = ld_meta (read_bytes v f (List.concat fs ++ tail)).
Proof. intros. eapply header_first; eassumption. Qed.
Print Assumptions C78_bounds_pbf.

(* ---- examples ---- *)
Definition ex_xml : string := "<?xml version=""1.0""?>
<osm version=""0.6"" generator=""hand""><bounds minlon=""1"" minlat=""2"" maxlon=""3"" maxlat=""4""/><node id=""17"" version=""1"" lon=""1.5"" lat=""2.5""><tag k=""a"" v=""b""/></node><way id=""20""><nd ref=""17""/></way></osm>".
Definition ex_late : string := "<?xml version=""1.0""?>
<osm version=""0.6""><node id=""17"" version=""1"" lon=""1.5"" lat=""2.5""/><bounds minlon=""1"" minlat=""2"" maxlon=""3"" maxlat=""4""/></osm>".
Definition ex_world : world := mkWorld (disk [("a.osm", bytes_of ex_xml); ("late.osm", bytes_of ex_late); ("bad.osm.gz", bytes_of ("z" ++ ex_xml))]%string) (bytes_of ("z" ++ ex_xml)) [].
Definition ids (l : loaded) : list Z := map (fun o => o_id (obj_attrs o)) (objects_of (ld_reading l)).
Definition got (r : outcome loaded) : option (list Z * meta) := match r with Ok l => Some (ids l, ld_meta l) | _ => None end.
Definition ex_run (a b : string) (w : world) : world * outcome unit := convert_main (small_env false) (mkCO "" "" [a; b]) w.
(** to PBF, from there to compressed XML, and read again *)
Example C78_example : works (small_env false) /\
  exists w1 w2, ex_run "a.osm" "b.osm.pbf" ex_world = (w1, Ok tt) /\ ex_run "b.osm.pbf" "c.osm.gz" w1 = (w2, Ok tt) /\
    got (load (small_env false) (file_of "b.osm.pbf" (FtOSM, FePBF)) w1) =
      Some ([17; 20], mkMeta "osmium_convert" (mkBounds (mkPos 10000000 20000000) (mkPos 30000000 40000000))) /\
    got (load (small_env false) (file_of "c.osm.gz" (FtOSM, FeXMLgz)) w2) =
      Some ([17; 20], mkMeta "osmium_convert" (mkBounds (mkPos 10000000 20000000) (mkPos 30000000 40000000))).
Proof.
  split; [apply small_works|]. eexists. eexists. split; [vm_compute; reflexivity|]. split; [vm_compute; reflexivity|].
  split; vm_compute; reflexivity.
Qed.
Example C78_ordinary : works (small_env false) /\ wire_format (ev_codec (small_env false)) /\
  exists l m, load (small_env false) (file_of "a.osm" (FtOSM, FeXML)) ex_world = Ok l /\ ld_init l = Some m /\ read_fully (ld_reading l) /\
    moderate (objects_of (ld_reading l)) /\ PbfSpec.few_texts (objects_of (ld_reading l)) /\ Forall PbfSpec.known_members (objects_of (ld_reading l)) /\ ids l = [17; 20].
Proof.
  split; [apply small_works|]. split; [exact PbfSizeProofs.protobuf_wire|]. eexists. eexists. split; [vm_compute; reflexivity|]. split; [vm_compute; reflexivity|].
  split; [vm_compute; reflexivity|]. split; [apply PbfSizeProofs.moderate_each; repeat constructor; vm_compute; discriminate|].
  split; [apply PbfTheorems.few_if_few; vm_compute; lia|]. split; [repeat constructor|]. vm_compute. reflexivity.
Qed.
Example C78_no_input_example : wd_files ex_world "x.osm.pbf" = None /\ snd (ex_run "x.osm.pbf" "b.osm.gz" ex_world) = Throw ESystem.
Proof. split; vm_compute; reflexivity. Qed.
Example C78_stdin_example : let w := mkWorld (disk [("a.osm", bytes_of ex_xml)]%string) (bytes_of ex_xml) [] in
  wd_files w "a.osm" = Some (wd_stdin w) /\ snd (convert_main (small_env false) (mkCO "osm" "" ["-"; "b.osm.pbf"]%string) w) = Ok tt.
Proof. split; vm_compute; reflexivity. Qed.
Example C78_given : given_as "dir.d/a.osm" "" (FtOSM, FeXML) /\ disk_name "dir.d/a.osm" /\ given_as "x" "osh.pbf" (FtHistory, FePBF).
Proof.
  split; [|split].
  - apply (ga_suffix _ _ "dir.d/" "a" "osm"); [reflexivity| | | |left; cbn; tauto].
    + split; [reflexivity|]. split; [|right; exists "dir.d"%string; reflexivity].
      apply find_first_none. reflexivity.
    + apply find_first_none. reflexivity.
    + intros [r [H|H]]; discriminate.
  - split; [cbn; intuition discriminate|]. intros [r [H|H]]; discriminate.
  - apply ga_format; [discriminate|]. left. cbn. tauto.
Qed.
Example C78_early : early_all [XmlSpec.Elem "bounds" [("minlon", "1")] []; XmlSpec.Elem "create" [] [XmlSpec.Elem "node" [] []]; XmlSpec.Elem "bounds" [] []]%string
  = ([[("minlon", "1")]]%string, true).
Proof. reflexivity. Qed.

(* ---- findings ---- *)
(** Finding: a PBF file converted onto itself is gone; the program ends normally. *)
Theorem C78_in_place_refuted : exists o w w' n data l, co_args o = [n; n] /\ given_as n (co_from o) (FtOSM, FePBF) /\ disk_name n /\
  wd_files w n = Some data /\ load (small_env false) (file_of n (FtOSM, FePBF)) w = Ok l /\ read_fully (ld_reading l) /\ ids l = [17; 20] /\
  convert_main (small_env false) o w = (w', Ok tt) /\ wd_files w' n = Some [].
Proof.
  exists (mkCO "" "" ["b.osm.pbf"; "b.osm.pbf"]%string), (fst (ex_run "a.osm" "b.osm.pbf" ex_world)). eexists. exists "b.osm.pbf"%string. eexists. eexists.
  split; [reflexivity|]. split; [|split].
  { apply (ga_suffix _ _ "" "b" "osm.pbf"); [reflexivity| | | |left; cbn; tauto].
    - split; [reflexivity|]. split; [apply find_first_none; reflexivity|left; reflexivity].
    - apply find_first_none. reflexivity.
    - intros [r [H|H]]; discriminate. }
  { split; [cbn; intuition discriminate|]. intros [r [H|H]]; discriminate. }
  split; [vm_compute; reflexivity|]. split; [vm_compute; reflexivity|]. split; [vm_compute; reflexivity|]. split; [vm_compute; reflexivity|].
  split; [vm_compute; reflexivity|]. vm_compute. reflexivity.
Qed.
Print Assumptions C78_in_place_refuted.
(** Finding: a format that does not exist is not reported: the output is written as a PBF file. *)
Theorem C78_format_refuted : exists o w', ~ In (co_to o) (map fst suffix_table) /\ co_to o <> ""%string /\
  convert_main (small_env false) o ex_world = (w', Ok tt) /\
  got (load (small_env false) (file_of "b.gpx" (FtOSM, FePBF)) w') =
    Some ([17; 20], mkMeta "osmium_convert" (mkBounds (mkPos 10000000 20000000) (mkPos 30000000 40000000))).
Proof.
  exists (mkCO "" "gpx" ["a.osm"; "b.gpx"]%string). eexists. split; [cbn; intuition discriminate|]. split; [discriminate|].
  split; [vm_compute; reflexivity|]. vm_compute. reflexivity.
Qed.
Print Assumptions C78_format_refuted.
(** Finding: compressed files can be given by format for standard input and output, but do not work there. *)
Theorem C78_gz_stdin_refuted : exists o l, co_args o = ["-"; "out.osm"]%string /\ co_from o = "osm.gz"%string /\
  read_bytes (small_env false) (file_of "-" (FtOSM, FeXMLgz)) (fst (ev_unzip (small_env false) FeXMLgz (wd_stdin ex_world))) = l /\
  read_fully (ld_reading l) /\ ids l = [17; 20] /\
  snd (convert_main (small_env false) o ex_world) = Throw ERuntime.
Proof.
  exists (mkCO "osm.gz" "" ["-"; "out.osm"]%string). eexists. do 2 (split; [reflexivity|]). split; [vm_compute; reflexivity|].
  split; [vm_compute; reflexivity|]. split; vm_compute; reflexivity.
Qed.
Print Assumptions C78_gz_stdin_refuted.
Theorem C78_gz_stdout_refuted : exists o, co_args o = ["a.osm"]%string /\ co_to o = "osm.gz"%string /\
  snd (convert_main (small_env false) o ex_world) = Throw ESystem /\ wd_stdout (fst (convert_main (small_env false) o ex_world)) = [].
Proof. exists (mkCO "" "osm.gz" ["a.osm"]%string). do 2 (split; [reflexivity|]). split; vm_compute; reflexivity. Qed.
Print Assumptions C78_gz_stdout_refuted.
(** Finding: bounds after the first object are read, but not converted. *)
Theorem C78_late_bounds_refuted : exists l w' l2, load (small_env false) (file_of "late.osm" (FtOSM, FeXML)) ex_world = Ok l /\
  read_fully (ld_reading l) /\ mt_bounds (ld_meta l) = mkBounds (mkPos 10000000 20000000) (mkPos 30000000 40000000) /\
  ex_run "late.osm" "b.osm" ex_world = (w', Ok tt) /\ load (small_env false) (file_of "b.osm" (FtOSM, FeXML)) w' = Ok l2 /\
  bounds_defined (mt_bounds (ld_meta l2)) = false.
Proof.
  eexists. eexists. eexists. split; [vm_compute; reflexivity|]. split; [vm_compute; reflexivity|]. split; [vm_compute; reflexivity|].
  split; [vm_compute; reflexivity|]. split; [vm_compute; reflexivity|]. vm_compute. reflexivity.
Qed.
Print Assumptions C78_late_bounds_refuted.
(** Finding: if the helper that unpacks the input reports an error, the program ends normally. *)
Theorem C78_helper_status_refuted : exists b w', wd_files ex_world "bad.osm.gz" = Some b /\ snd (ev_unzip (small_env true) FeXMLgz b) = false /\
  convert_main (small_env true) (mkCO "" "" ["bad.osm.gz"; "b.osm"]%string) ex_world = (w', Ok tt).
Proof. eexists. eexists. split; [vm_compute; reflexivity|]. split; [vm_compute; reflexivity|]. vm_compute. reflexivity. Qed.
Print Assumptions C78_helper_status_refuted.
