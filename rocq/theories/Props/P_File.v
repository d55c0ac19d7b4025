(** C45: file names.  C46: descriptors and helper processes.  C47: output factory. *)
From Verif Require Import Base.Prelude Model.OsmFile Spec.OsmFileSpec Proofs.OsmFileProofs.

(* ---- C45 ---- *)
(** the suffix is what follows the first dot of the part after the last slash *)
Theorem C45_suffix : forall name dir stem suffix te, splits name dir (stem ++ String "." suffix) -> ~ has "." stem -> ~ url name ->
  suffix_means suffix te -> (of_type (osmfile_new name), of_enc (osmfile_new name)) = te.
Proof. exact type_from_suffix. Qed.
Theorem C45_no_suffix : forall name dir base, splits name dir base -> ~ has "." base -> ~ url name ->
  ~ In name ["osm"; "osh"; "osc"; "http"; "https"]%string ->
  of_type (osmfile_new name) = FtOSM /\ of_enc (osmfile_new name) = FePBF.
Proof. exact type_without_suffix. Qed.
Theorem C45_stdin_stdout : forall name, name = ""%string \/ name = "-"%string -> osmfile_new name = mkOF FtOSM FePBF "" (-1) 0.
Proof. exact stdin_stdout. Qed.
Theorem C45_set_filename : forall o n, of_set_name "-" o = of_set_name "" o /\
  (n <> "-"%string -> of_name (of_set_name n o) = n) /\
  of_type (of_set_name n o) = of_type o /\ of_enc (of_set_name n o) = of_enc o /\ of_fd (of_set_name n o) = of_fd o /\ of_child (of_set_name n o) = of_child o.
Proof. exact set_filename. Qed.
Theorem C45_url : forall name, url name -> of_type (osmfile_new name) = FtOSM /\ of_enc (osmfile_new name) = FeXML.
Proof. exact type_of_url. Qed.
Theorem C45_default_suffix : forall o, ~ url (of_name o) -> (of_type o, of_enc o) <> (FtChange, FePBF) ->
  of_type (osmfile_new (filename_with_default_suffix o)) = of_type o /\
  of_enc (osmfile_new (filename_with_default_suffix o)) = of_enc o.
Proof. exact default_suffix_recognised. Qed.
(** change files in PBF: the name made by the library is taken for a plain OSM file *)
Theorem C45_default_suffix_refuted : exists o, ~ url (of_name o) /\ of_type (osmfile_new (filename_with_default_suffix o)) <> of_type o.
Proof. exact ex_osc_pbf. Qed.
(** a name without a dot is taken for a suffix *)
Theorem C45_no_suffix_refuted : exists name, ~ has "." name /\ of_enc (osmfile_new name) = FeXML /\ ~ url name.
Proof. exact ex_no_suffix. Qed.
(** a local file called http is fetched with curl *)
Theorem C45_local_file_refuted : exists name, ~ url name /\ ~ has ":" name /\ of_enc (osmfile_new name) = FeXML /\
  (forall sy o, of_name o = name -> of_enc o = FeXML -> open_for_input sy o = execute true sy o).
Proof. exact ex_http_file. Qed.
(** a dot in a directory name cuts the path *)
Theorem C45_directory_kept_refuted : exists name, name = "./data/x.osm"%string /\ filename_with_default_suffix (osmfile_new name) = ".osm"%string.
Proof. exact ex_directory_dot. Qed.
(** type and encoding by name: the same as from the parts of the suffix of a file name *)
Theorem C45_type_names : forall s, (forall t, type_of_string s = Ok t <-> In (s, t) type_table) /\
  (~ In s (map fst type_table) -> type_of_string s = Throw EArgument).
Proof. exact type_names. Qed.
Print Assumptions C45_type_names.
Theorem C45_enc_names : forall s, (forall e, enc_of_string s = Ok e <-> In (s, e) enc_table) /\
  (~ In s (map fst enc_table) -> enc_of_string s = Throw EArgument).
Proof. exact enc_names. Qed.
Print Assumptions C45_enc_names.
Theorem C45_names_agree : forall name dir stem a b, splits name dir (stem ++ String "." (a ++ String "." b)) -> ~ has "." stem -> ~ url name ->
  In a ["osm"; "osh"; "osc"]%string -> In b ["pbf"; "gz"; "bz2"]%string -> (a, b) <> ("osc", "pbf")%string ->
  type_of_string a = Ok (of_type (osmfile_new name)) /\ enc_of_string b = Ok (of_enc (osmfile_new name)).
Proof. exact names_agree. Qed.
Print Assumptions C45_names_agree.
Example C45_ex : splits "/d.x/planet-1.osm.bz2" "/d.x/" ("planet-1" ++ ".osm.bz2") /\ suffix_means "osm.bz2" (FtOSM, FeXMLbz2).
Proof.
  split; [|left; cbn; tauto]. split; [reflexivity|]. split; [apply find_first_none; reflexivity|]. right. exists "/d.x"%string. reflexivity.
Qed.
Print Assumptions C45_suffix.
Print Assumptions C45_no_suffix.
Print Assumptions C45_stdin_stdout.
Print Assumptions C45_set_filename.
Print Assumptions C45_url.
Print Assumptions C45_default_suffix.
Print Assumptions C45_default_suffix_refuted.
Print Assumptions C45_no_suffix_refuted.
Print Assumptions C45_local_file_refuted.
Print Assumptions C45_directory_kept_refuted.

(* ---- C46 ---- *)
(** all programs, all results of system calls: no descriptor is closed when it is not open *)
Theorem C46_no_double_close : forall l, along fresh_fds l fs_init -> closes_open (fs_trace (frun l fs_init)).
Proof. exact no_double_close. Qed.
Theorem C46_no_shared_fd : forall l i j o o', along fresh_fds l fs_init -> obj (frun l fs_init) i = Some o -> obj (frun l fs_init) j = Some o' -> i <> j ->
  3 <= of_fd o -> of_fd o <> of_fd o'.
Proof. exact no_shared_fd. Qed.
Theorem C46_no_shared_child : forall l i j o o', along new_pid l fs_init -> obj (frun l fs_init) i = Some o -> obj (frun l fs_init) j = Some o' -> i <> j ->
  of_child o <> 0 -> of_child o <> of_child o'.
Proof. exact no_shared_child. Qed.
Theorem C46_close_reports : forall s i o sy, obj s i = Some o -> of_child o <> 0 ->
  (snd (fstep (FClose i) sy s) = None <-> r_wait sy = true) /\
  exists o', obj (fst (fstep (FClose i) sy s)) i = Some o' /\ of_fd o' = -1.
Proof. exact close_reports. Qed.
Theorem C46_failed_open_unchanged : forall s i o sy op, op = FOpenIn i \/ op = FOpenOut i -> obj s i = Some o -> snd (fstep op sy s) <> None ->
  obj (fst (fstep op sy s)) i = Some o.
Proof. exact open_failure_unchanged. Qed.
(** careful programs leave no descriptor open and no child behind *)
Theorem C46_careful_no_leak : forall l, ops_along careful l fs_init -> along fresh_fds l fs_init -> along fresh_pid l fs_init ->
  all_closed (frun l fs_init) -> fds (fs_trace (frun l fs_init)) = [] /\ kids (fs_trace (frun l fs_init)) = [].
Proof. exact careful_no_leak. Qed.
Theorem C46_careful_waits : forall l, ops_along careful l fs_init -> along fresh_fds l fs_init -> along fresh_pid l fs_init ->
  waits_running (fs_trace (frun l fs_init)).
Proof. exact careful_waits. Qed.
(** without care: opening twice, assigning to an open file and a failing fork leak descriptors *)
Theorem C46_reopen_leak_refuted : exists l, along fresh_fds l fs_init /\ along new_pid l fs_init /\ all_closed (frun l fs_init) /\ fds (fs_trace (frun l fs_init)) <> [].
Proof. exact ex_reopen_leak. Qed.
Theorem C46_assign_leak_refuted : exists l, along fresh_fds l fs_init /\ along new_pid l fs_init /\ all_closed (frun l fs_init) /\ fds (fs_trace (frun l fs_init)) <> [].
Proof. exact ex_assign_leak. Qed.
Theorem C46_fork_leak_refuted : exists l, along fresh_fds l fs_init /\ along new_pid l fs_init /\ all_closed (frun l fs_init) /\ List.length (fds (fs_trace (frun l fs_init))) = 2%nat.
Proof. exact ex_fork_leak. Qed.
(** after a failed helper the file keeps its process id: it is waited for twice, and if the
    kernel reuses the id two files share one child *)
Theorem C46_double_wait_refuted : exists l, along fresh_fds l fs_init /\ along new_pid l fs_init /\ ~ waits_running (fs_trace (frun l fs_init)).
Proof. exact ex_double_wait. Qed.
Theorem C46_shared_child_refuted : exists l i j o o', along fresh_fds l fs_init /\ along fresh_pid l fs_init /\ i <> j /\
  obj (frun l fs_init) i = Some o /\ obj (frun l fs_init) j = Some o' /\ of_child o <> 0 /\ of_child o = of_child o'.
Proof. exact ex_shared_child. Qed.
(** standard input is closed once per object *)
Theorem C46_stdin_closed_twice_refuted : exists l, along fresh_fds l fs_init /\ exists pre mid post, fs_trace (frun l fs_init) = pre ++ EvClose 0 :: mid ++ EvClose 0 :: post /\ ~ In (EvOpen 0) mid.
Proof. exact ex_double_close_stdin. Qed.
Definition C46_ex_prog : list (fop * sysres) :=
  [(FNew "a.osm.gz", ok_sys); (FCopy 0, ok_sys); (FOpenIn 0, ok_sys);
   (FOpenOut 1, mkSys (Some 5) (Some (5, 6)) (Some 11) true); (FClose 0, idle); (FDestroy 1, idle)].
Example C46_ex : ops_along careful C46_ex_prog fs_init /\ along fresh_fds C46_ex_prog fs_init /\ along new_pid C46_ex_prog fs_init /\ all_closed (frun C46_ex_prog fs_init) /\
  fs_trace (frun C46_ex_prog fs_init) = [EvPipe 3 4; EvFork 10; EvClose 4; EvPipe 5 6; EvFork 11; EvClose 5; EvClose 3; EvWait 10; EvClose 6; EvWait 11].
Proof.
  split; [|split; [along_tac|split; [along_tac|split; [|vm_compute; reflexivity]]]].
  - cbn. repeat split; try discriminate; intros; injection H as <-; auto.
  - intros i o H. vm_compute in H. destruct i as [|[|[|]]]; try discriminate. injection H as <-. auto.
Qed.
Print Assumptions C46_no_double_close.
Print Assumptions C46_no_shared_fd.
Print Assumptions C46_no_shared_child.
Print Assumptions C46_close_reports.
Print Assumptions C46_failed_open_unchanged.
Print Assumptions C46_careful_no_leak.
Print Assumptions C46_careful_waits.
Print Assumptions C46_reopen_leak_refuted.
Print Assumptions C46_assign_leak_refuted.
Print Assumptions C46_fork_leak_refuted.
Print Assumptions C46_double_wait_refuted.
Print Assumptions C46_shared_child_refuted.
Print Assumptions C46_stdin_closed_twice_refuted.

(* ---- C47 ---- *)
(** what is created is what was registered first since the last unregistration *)
Theorem C47_create : forall (C : Type) (l : list (facop C)) e,
  (forall c, fac_create e (facrun l []) = Ok c <-> first_registered l e c) /\
  (fac_create e (facrun l []) = Throw (EOther 1) <-> none_registered l e).
Proof. exact @create_first. Qed.
(** this is the function registered last if nothing is registered twice *)
Theorem C47_create_last : forall (C : Type) (l : list (facop C)) e c, registers_once l ->
  (fac_create e (facrun l []) = Ok c <-> last_registered l e c).
Proof. exact @create_last. Qed.
Theorem C47_last_registered_refuted : exists (l : list (facop Z)) (c : Z), last_registered l FeXML c /\ fac_create FeXML (facrun l []) <> Ok c.
Proof. exact ex_first_wins. Qed.
Example C47_ex : fac_create FeXML (facrun [Reg FeXML 1; Reg FePBF 2; Unreg FeXML; Reg FeXML 3] []) = Ok 3.
Proof. reflexivity. Qed.
Print Assumptions C47_create.
Print Assumptions C47_create_last.
Print Assumptions C47_last_registered_refuted.
