(** Large PBF files: C79 *)
From Verif Require Import Base.Prelude Model.Osm Model.Utils Model.OsmFile Model.Handler Model.Pbf Spec.UtilsSpec Spec.TagsSpec Spec.HandlerSpec
  Spec.PbfSpec Spec.Protobuf Spec.PbfExamples Spec.PbfSizeSpec Proofs.PbfTheorems Proofs.PbfSizeProofs.
Local Open Scope Z_scope.

(** Objects of moderate size are always written, and the file can be read: no condition on the blobs is left. *)
Theorem C79_read_back K c m os sched : codec_ok K -> wire_format K -> default_gran c ->
  bounds_defined (mt_bounds m) = false \/ bounds_ok (mt_bounds m) -> slen (cf_generator c) <= 1000000 ->
  Forall object_ok os -> Forall near_ids os -> Forall known_members os -> few_texts os -> moderate os -> writes_complete sched ->
  exists file, write_pbf K c m os sched = Ok file /\ forall s, reads_ok s ->
    let r := read_pbf K (cf_type c) (mkIfd file s) in
    pr_end r = Ok tt /\ (forall t, only t (pr_groups r) = ofilter t (map (kept c) os)) /\
    (type_sorted os -> flat_map snd (pr_groups r) = map (kept c) os) /\
    mt_generator (pr_meta r) = cf_generator c /\
    (bounds_defined (mt_bounds m) = false -> mt_bounds (pr_meta r) = bounds_new) /\
    (bounds_ok (mt_bounds m) -> pos_almost (bottom_left (mt_bounds m)) (bottom_left (mt_bounds (pr_meta r))) /\
                                pos_almost (top_right (mt_bounds m)) (top_right (mt_bounds (pr_meta r)))).
Proof. exact (fun HK HW HG => read_back K c HK HG HW m os sched). Qed.
Print Assumptions C79_read_back.

(** Objects of up to 4187 bytes each are of moderate size, however many there are. *)
Theorem C79_moderate os : Forall (fun o => bulk o <= 4187) os -> moderate os.
Proof. exact (moderate_each os). Qed.
Print Assumptions C79_moderate.

(** More than 32 MB of different tag texts in a block of nodes: nothing of the file can be read. *)
Theorem C79_too_much K c m os sched : codec_ok K -> wire_format K -> default_gran c ->
  bounds_defined (mt_bounds m) = false \/ bounds_ok (mt_bounds m) -> slen (cf_generator c) <= 1000000 ->
  Forall object_ok os -> Forall near_ids os -> (forall o, In o os -> obj_type o = NODE) -> Z.of_nat (List.length os) <= 8000 -> few_texts os ->
  limit < total slen (nodup string_dec (flat_map (fun o => tag_texts (o_tags (obj_attrs o))) os)) -> total bulk os <= 2000000000 ->
  writes_complete sched ->
  (exists file, write_pbf K c m os sched = Ok file /\ forall s, reads_ok s ->
     let r := read_pbf K (cf_type c) (mkIfd file s) in
     pr_groups r = [] /\ (pr_end r = Throw ERuntime \/ pr_end r = AssertFail)) \/
  (cf_compress c = true /\ write_pbf K c m os sched = Throw ERuntime).
Proof. exact (fun HK HW HG => too_much K c HK HG HW m os sched). Qed.
Print Assumptions C79_too_much.

(** Every file that is written can be read: false even when no text is longer than 255 characters. *)
Theorem C79_always_refuted : exists os file, Forall object_ok os /\ Forall near_ids os /\ Forall known_members os /\ few_texts os /\
  (forall o t, In o os -> In t (texts o) -> slen t <= 1020) /\ write_pbf protobuf plain_cfg meta_new os [] = Ok file /\
  forall s, reads_ok s -> pr_groups (read_pbf protobuf FtOSM (mkIfd file s)) = [] /\ pr_end (read_pbf protobuf FtOSM (mkIfd file s)) <> Ok tt.
Proof. exact large_refuted. Qed.
Print Assumptions C79_always_refuted.

Example C79_libraries : wire_format protobuf.
Proof. exact protobuf_wire. Qed.
Example C79_example : moderate ex_objects /\ few_texts ex_objects /\ total bulk ex_objects = 1027.
Proof.
  split; [|split; [exact ex_few|vm_compute; reflexivity]]. apply C79_moderate. repeat constructor; vm_compute; discriminate.
Qed.
Example C79_too_much_example : Forall object_ok face_nodes /\ few_texts face_nodes /\
  limit < total slen (nodup string_dec (flat_map (fun o => tag_texts (o_tags (obj_attrs o))) face_nodes)) /\ total bulk face_nodes <= 2000000000.
Proof. exact (conj (proj1 face_ok) (conj face_few (conj face_limit face_total))). Qed.
