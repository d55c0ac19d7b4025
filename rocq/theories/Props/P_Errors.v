(** Failing system calls, failing readers and limits: more about C12, C16, C42, C46, C52 and C73. *)
From Verif Require Import Base.Prelude Model.Osm Model.Time Model.Attr Model.Store Model.OsmFile Model.Shapefile Model.Handler Model.Assembler Model.Convert
  Model.Members Model.Xml Spec.OsmFileSpec Spec.HandlerSpec Spec.AssemblerSpec Spec.XmlSpec Spec.XmlText Spec.XmlExamples Proofs.SmallProofs Props.P_Assembler Props.P_Members.

(** A time has no text, not even an empty one, exactly if its year does not fit into an int: gmtime returns a null pointer that is used. *)
Theorem C12_defined : forall t, to_iso t = UB <-> t < -67768040609740800 \/ 67768036191676799 < t.
Proof. exact iso_defined. Qed.
Print Assumptions C12_defined.
Example C12_defined_ex : to_iso 67768036191676799 = Ok ""%string /\ to_iso 67768036191676800 = UB.
Proof. split; vm_compute; reflexivity. Qed.

(** If there is no memory for a store the constructor throws. *)
Theorem C16_no_memory : forall (V : Type) (zv : V) sz max_id f,
  fa_new (V:=V) sz max_id false = Throw EBadAlloc /\ ma_new zv sz false = Throw EBadAlloc /\ mf_open (V:=V) sz f false = Throw EBadAlloc.
Proof. exact no_memory. Qed.
Print Assumptions C16_no_memory.

(** After an error nothing more is written to the file. *)
Theorem C42_failed : forall L (lib : L -> wcall -> L * bool) free l ft g b os,
  snd (write_xml lib free l ft g b os) <> Ok tt -> snd (fst (write_xml lib free l ft g b os)) = false.
Proof. exact write_failed. Qed.
Print Assumptions C42_failed.
Example C42_failed_ex : snd (write_xml (fun l (_ : wcall) => (l, false)) (fun l : tw => (l, true)) tw_new FtOSM "osmium" ex_bounds ex_objects) <> Ok tt.
Proof. vm_compute. discriminate. Qed.
(** The types of members are written with the names of OSM. *)
Theorem C42_member_types : forall ft g b os cs v, xml_calls ft g b os = Ok cs -> In (WAttr "type" v) cs ->
  exists r m, In (ORel r) os /\ In m (r_members r) /\
    (m_type m = "n"%char /\ v = "node"%string \/ m_type m = "w"%char /\ v = "way"%string \/ m_type m = "r"%char /\ v = "relation"%string \/
     ~ In (m_type m) ["n"; "w"; "r"]%char /\ v = "unknown"%string).
Proof. exact type_attributes. Qed.
Print Assumptions C42_member_types.
Example C42_member_types_ex : exists cs, xml_calls FtOSM "" bounds_new [mrel 1 [] [("w"%char, 5, ""%string)]] = Ok cs /\ In (WAttr "type" "way") cs.
Proof. eexists. split; [vm_compute; reflexivity|]. cbn. auto 20. Qed.

(** Opening a file either gives an open descriptor, of the file or of a helper program, or standard input or output if there is no name; or it reports an error, and
    then the object is as it was and no helper program runs. *)
Theorem C46_open : forall s o o' ev e, (forall r w, r_pipe s = Some (r, w) -> r <> w) ->
  open_for_input s o = (o', ev, e) \/ open_for_output s o = (o', ev, e) ->
  of_type o' = of_type o /\ of_enc o' = of_enc o /\ of_name o' = of_name o /\
  (e = None /\ (In (of_fd o') (fds ev) \/ of_name o = ""%string /\ ev = [] /\ (of_fd o' = 0 \/ of_fd o' = 1)) \/
   e = Some ESystem /\ o' = o /\ kids ev = []).
Proof. exact open_result. Qed.
Print Assumptions C46_open.
Example C46_open_ex : let o := osmfile_new "berlin.osm.bz2" in
  open_for_input (mkSys None (Some (3, 4)) (Some 77) true) o = (mkOF FtOSM FeXMLbz2 "berlin.osm.bz2" 3 77, [EvPipe 3 4; EvFork 77; EvClose 4], None) /\
  open_for_output (mkSys None None None true) (osmfile_new "berlin.osm") = (osmfile_new "berlin.osm", [], Some ESystem).
Proof. split; reflexivity. Qed.

(** A field of a shapefile has a name of one to eleven bytes and is up to 255 wide; nothing else is accepted. *)
Theorem C52_fields : forall name ty w d, (1 <= slen name <= 11 -> w <= 255 -> field_new name ty w d = Ok (mkField name ty w d)) /\
  (slen name = 0 \/ 11 < slen name \/ 255 < w -> field_new name ty w d = Throw EInvalidArgument).
Proof. exact field_limits. Qed.
Print Assumptions C52_fields.
Example C52_fields_ex : field_new "elevation_m" FTDouble 12 2 = Ok (mkField "elevation_m" FTDouble 12 2) /\ field_new "elevation_mm" FTDouble 12 2 = Throw EInvalidArgument.
Proof. split; reflexivity. Qed.

(** If a file cannot be read to its end, the program that shows relations ends with an error. *)
Theorem C73_failed : forall srt gs e, (forall g, In g gs -> well_typed g) -> e <> EStopReading -> exists h, snd (relation_members srt (gs, Throw e)) = Some h.
Proof. exact members_failed. Qed.
Print Assumptions C73_failed.
Example C73_failed_ex : relation_members isort (members_file, Throw ERuntime) = (""%string, Some (HExn ERuntime)).
Proof. vm_compute. reflexivity. Qed.
