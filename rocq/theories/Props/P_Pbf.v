(** C36 to C41, C58: PBF files. *)
From Verif Require Import Base.Prelude Model.Osm Model.Float Model.Utils Model.OsmFile Model.Handler Model.Pbf
  Spec.UtilsSpec Spec.TagsSpec Spec.HandlerSpec Spec.PbfSpec Spec.Protobuf Spec.PbfExamples
  Proofs.PbfFrameProofs Proofs.PbfProofs Proofs.PbfMainProofs Proofs.PbfTheorems Proofs.ProtobufProofs Proofs.PbfSafeProofs.

(* ---- the assumptions on the libraries ---- *)
(** They are met by the wire format of protobuf. *)
Theorem C36_libraries : codec_ok protobuf.
Proof. exact protobuf_ok. Qed.
Print Assumptions C36_libraries.

(* ---- C36: blobs ---- *)
(** Whatever is stored with complete writes is read back, with any way the system splits the reads. *)
Theorem C36_roundtrip : forall K compress bs file s, codec_ok K ->
  Forall (fun x => slen (fst x) <= 1000 /\ small K compress (snd x)) bs ->
  store_all K compress bs (mkOfd [] []) = Ok (mkOfd file []) -> reads_ok s ->
  read_blobs K (mkIfd file s) = (bs, Ok tt).
Proof. exact blobs_roundtrip. Qed.
Print Assumptions C36_roundtrip.
(** Storing small blobs succeeds. *)
Theorem C36_stored : forall K compress bs, codec_ok K ->
  Forall (fun x => slen (fst x) <= 1000 /\ small K compress (snd x)) bs ->
  exists file, store_all K compress bs (mkOfd [] []) = Ok (mkOfd file []).
Proof. exact blobs_stored. Qed.
Print Assumptions C36_stored.
(** A file cut off anywhere: the blobs before the cut are delivered and the cut is reported, unless
    it is at the end of a blob or in the four bytes before the next blob header. *)
Theorem C36_truncated : forall K bs fs x part more s, Forall2 (blob_bytes K) bs fs -> blob_bytes K x (part ++ more) -> more <> [] ->
  reads_ok s ->
  read_blobs K (mkIfd (List.concat fs ++ part) s) = (bs, if Nat.ltb (List.length part) 4 then Ok tt else Throw ERuntime).
Proof. exact read_blobs_cut. Qed.
Print Assumptions C36_truncated.
(** For any bytes and any behaviour of read(): only blobs that are in the file are delivered, a clean
    end means that all of the file (up to three bytes) was delivered. *)
Theorem C36_sound : forall K f bs e, codec_ok K -> read_blobs K f = (bs, e) ->
  exists fs rest, in_rest f = List.concat fs ++ rest /\ Forall2 (blob_bytes K) bs fs /\
    (e = Ok tt -> (List.length rest < 4)%nat) /\ (e = Ok tt \/ e = Throw ERuntime \/ e = AssertFail).
Proof. exact read_blobs_sound. Qed.
Print Assumptions C36_sound.
(** A cut inside the length is not reported. *)
Theorem C36_truncated_refuted : exists bs fs x part more, Forall2 (blob_bytes protobuf) bs fs /\ blob_bytes protobuf x (part ++ more) /\
  part <> [] /\ more <> [] /\ read_blobs protobuf (mkIfd (List.concat fs ++ part) []) = (bs, Ok tt).
Proof. exact truncated_refuted. Qed.
Print Assumptions C36_truncated_refuted.
(** A write() that writes only a part of the data is not noticed. *)
Theorem C36_short_write_refuted : exists bs sched f, Forall (fun x => slen (fst x) <= 1000 /\ small protobuf false (snd x)) bs /\
  store_all protobuf false bs (mkOfd [] sched) = Ok f /\ ~ In WErr sched /\ fst (read_blobs protobuf (mkIfd (fd_out f) [])) <> bs.
Proof. exact short_write_refuted. Qed.
Print Assumptions C36_short_write_refuted.
Example C36_example : let bs := [("OSMHeader"%string, list_ascii_of_string "abc"); ("OSMData"%string, list_ascii_of_string "defgh")] in
  Forall (fun x => slen (fst x) <= 1000 /\ small protobuf true (snd x)) bs /\
  exists file, store_all protobuf true bs (mkOfd [] []) = Ok (mkOfd file []) /\ blen file = 48 /\ reads_ok [RSome 1; RSome 3; RSome 100] /\
    read_blobs protobuf (mkIfd file [RSome 1; RSome 3; RSome 100]) = (bs, Ok tt).
Proof.
  cbv zeta. split; [repeat constructor; vm_compute; discriminate|]. eexists. split; [vm_compute; reflexivity|].
  split; [vm_compute; reflexivity|]. split; [intros [H|[H|[H|[]]]]; discriminate|]. vm_compute. reflexivity.
Qed.

(* ---- C37: objects ---- *)
(** The blocks hold the objects in order, at most 8000 each; if no blob is larger than the format
    allows the reader delivers each block, the objects grouped by type. *)
Theorem C37_roundtrip : forall K c m os sched file, codec_ok K -> default_gran c -> Forall object_ok os -> few_texts os ->
  writes_complete sched -> write_pbf K c m os sched = Ok file ->
  exists h chunks ps, pieces os chunks /\ List.length ps = List.length chunks /\ layout K c h ps file /\
    (readable K c h ps -> forall s, reads_ok s ->
       pr_groups (read_pbf K (cf_type c) (mkIfd file s)) = flat_map (fun ch => by_kind (map (kept c) ch)) chunks /\
       pr_end (read_pbf K (cf_type c) (mkIfd file s)) = Ok tt).
Proof. exact pbf_roundtrip. Qed.
Print Assumptions C37_roundtrip.
(** The objects of each type come back in the order they were written; all of them do if nodes come
    before ways and ways before relations. *)
Theorem C37_order : forall K c m os sched file, codec_ok K -> default_gran c -> Forall object_ok os -> few_texts os ->
  writes_complete sched -> write_pbf K c m os sched = Ok file ->
  exists h ps, layout K c h ps file /\
    (readable K c h ps -> forall s, reads_ok s ->
       let r := read_pbf K (cf_type c) (mkIfd file s) in
       pr_end r = Ok tt /\ (forall t, only t (pr_groups r) = ofilter t (map (kept c) os)) /\
       (type_sorted os -> flat_map snd (pr_groups r) = map (kept c) os)).
Proof. exact pbf_order. Qed.
Print Assumptions C37_order.
(** Writing succeeds, unless compressed data does not fit into a blob. *)
Theorem C37_written : forall K c m os sched, codec_ok K -> default_gran c ->
  bounds_defined (mt_bounds m) = false \/ bounds_ok (mt_bounds m) ->
  Forall object_ok os -> Forall near_ids os -> Forall known_members os -> few_texts os -> writes_complete sched ->
  (exists file, write_pbf K c m os sched = Ok file) \/ (cf_compress c = true /\ write_pbf K c m os sched = Throw ERuntime).
Proof. exact pbf_written. Qed.
Print Assumptions C37_written.
(** The order of objects of different types is not kept. *)
Theorem C37_order_refuted : exists c os file, default_gran c /\ Forall object_ok os /\ write_pbf protobuf c meta_new os [] = Ok file /\
  let r := read_pbf protobuf (cf_type c) (mkIfd file []) in
  pr_end r = Ok tt /\ flat_map snd (pr_groups r) <> map (kept c) os.
Proof. exact order_refuted. Qed.
Print Assumptions C37_order_refuted.
Example C37_example :
  default_gran ex_cfg /\ Forall object_ok ex_objects /\ Forall near_ids ex_objects /\ Forall known_members ex_objects /\ few_texts ex_objects /\
  type_sorted ex_objects /\
  exists h ps file, write_pbf protobuf ex_cfg meta_new ex_objects [] = Ok file /\ layout protobuf ex_cfg h ps file /\ readable protobuf ex_cfg h ps /\
    read_pbf protobuf FtOSM (mkIfd file [RSome 7]) =
      mkPRd [(NODE, map (kept ex_cfg) [ex_node1; ex_node2]); (WAY, map (kept ex_cfg) [ex_way]); (RELATION, map (kept ex_cfg) [ex_rel])]
            (mkMeta "osmium" bounds_new) (Ok tt).
Proof. exact example_file. Qed.

(* ---- C38: dense nodes ---- *)
(** Files that differ in the encoding of nodes and in compression read back the same: for each type the
    same objects in the same order. *)
Theorem C38_dense : forall K c1 c2 m1 m2 os sched1 sched2 file1 file2, codec_ok K -> default_gran c1 -> default_gran c2 -> same_contents c1 c2 ->
  Forall object_ok os -> few_texts os -> writes_complete sched1 -> writes_complete sched2 ->
  write_pbf K c1 m1 os sched1 = Ok file1 -> write_pbf K c2 m2 os sched2 = Ok file2 ->
  exists h1 ps1 h2 ps2, layout K c1 h1 ps1 file1 /\ layout K c2 h2 ps2 file2 /\
    (readable K c1 h1 ps1 -> readable K c2 h2 ps2 -> forall s1 s2, reads_ok s1 -> reads_ok s2 ->
       let r1 := read_pbf K (cf_type c1) (mkIfd file1 s1) in
       let r2 := read_pbf K (cf_type c2) (mkIfd file2 s2) in
       pr_end r1 = Ok tt /\ pr_end r2 = Ok tt /\ (forall t, only t (pr_groups r1) = only t (pr_groups r2)) /\
       (type_sorted os -> flat_map snd (pr_groups r1) = flat_map snd (pr_groups r2))).
Proof. exact pbf_dense. Qed.
Print Assumptions C38_dense.
Example C38_example : exists file1 file2, write_pbf protobuf ex_cfg meta_new ex_objects [] = Ok file1 /\
  write_pbf protobuf ex_cfg_plain meta_new ex_objects [] = Ok file2 /\ same_contents ex_cfg ex_cfg_plain /\ file1 <> file2 /\
  pr_groups (read_pbf protobuf FtOSM (mkIfd file1 [])) = pr_groups (read_pbf protobuf FtOSM (mkIfd file2 [])).
Proof. exact example_dense. Qed.

(* ---- C39: blocks ---- *)
(** In every state of a writer that is given correct objects: the objects since the last flush are in
    the block, at most 8000; earlier ones are in the file, in blocks that are pieces of the objects. *)
Theorem C39_blocks : forall K c m os sched w, codec_ok K -> default_gran c -> Forall object_ok os -> few_texts os ->
  written_so_far K c m os sched w ->
  exists h chunks l ps, List.concat chunks ++ l = os /\ Forall (fun ch => ch <> [] /\ Z.of_nat (List.length ch) <= 8000) chunks /\
    Z.of_nat (List.length l) <= 8000 /\ w_contents w = Z.of_nat (List.length l) /\ List.length ps = List.length chunks /\
    store_all K (cf_compress c) (("OSMHeader"%string, h) :: map (fun b => ("OSMData"%string, b)) ps) (mkOfd [] sched) = Ok (w_fd w).
Proof. exact pbf_blocks. Qed.
Print Assumptions C39_blocks.
(** final() leaves nothing unwritten. *)
Theorem C39_final : forall K c w w', w_contents w >= 0 -> pbf_final K c w = Ok w' -> w_contents w' = 0.
Proof. exact final_empty. Qed.
Print Assumptions C39_final.
(** A block may hold objects of different types (C37_order_refuted: then they are reordered). *)
Theorem C39_mixed_refuted : exists c os file, default_gran c /\ Forall object_ok os /\ write_pbf protobuf c meta_new os [] = Ok file /\
  exists h p b, layout protobuf c h [p] file /\ par_pb protobuf p = Some b /\
    exists g1 g2, In g1 (pb_groups b) /\ In g2 (pb_groups b) /\ g_ways g1 <> [] /\ g_rels g2 <> [].
Proof. exact mixed_refuted. Qed.
Print Assumptions C39_mixed_refuted.
(** A relation that is refused is in the file all the same, with some of its members, if writing goes on. *)
Theorem C39_refused_relation_refuted : exists c r w1 w2 w3 r', default_gran c /\ object_ok (ORel r) /\
  pbf_init protobuf c meta_new (pwriter_new (mkOfd [] [])) = Ok w1 /\ pbf_object protobuf c (ORel r) w1 = Ok (w2, Some ERuntime) /\
  pbf_final protobuf c w2 = Ok w3 /\
  pr_groups (read_pbf protobuf (cf_type c) (mkIfd (fd_out (w_fd w3)) [])) = [(RELATION, [ORel r'])] /\ r_members r' <> r_members r.
Proof. exact refused_refuted. Qed.
Print Assumptions C39_refused_relation_refuted.
Example C39_example : exists w, written_so_far protobuf ex_cfg meta_new ex_objects [] w /\ w_contents w = 4 /\
  Forall object_ok ex_objects /\ few_texts ex_objects.
Proof. exact example_blocks. Qed.

(* ---- C40: header ---- *)
(** The reader accepts the header of the writer for the type of file it was written for, and gets the
    generator and the bounds: coordinates may be one unit nearer to zero. *)
Theorem C40_header : forall K c m os sched file, codec_ok K -> default_gran c -> Forall object_ok os -> few_texts os ->
  writes_complete sched -> write_pbf K c m os sched = Ok file ->
  exists h ps, layout K c h ps file /\
    (readable K c h ps -> forall s, reads_ok s ->
       let m' := pr_meta (read_pbf K (cf_type c) (mkIfd file s)) in
       mt_generator m' = cf_generator c /\
       (bounds_defined (mt_bounds m) = false -> mt_bounds m' = bounds_new) /\
       (bounds_ok (mt_bounds m) -> pos_almost (bottom_left (mt_bounds m)) (bottom_left (mt_bounds m')) /\
                                   pos_almost (top_right (mt_bounds m)) (top_right (mt_bounds m')))).
Proof. exact pbf_header. Qed.
Print Assumptions C40_header.
(** The header announces the features the file makes use of. *)
Theorem C40_features : forall K c m os sched file, codec_ok K -> default_gran c -> Forall object_ok os -> few_texts os ->
  writes_complete sched -> write_pbf K c m os sched = Ok file ->
  exists h hb ps, layout K c h ps file /\ (readable K c h ps -> par_hb K h = Some hb) /\
    NoDup (hb_features hb) /\ forall f, In f (hb_features hb) <-> announced c f.
Proof. exact header_features. Qed.
Print Assumptions C40_features.
(** Any file starting with a header: unless all required features are known and fit the type of the
    file, nothing is delivered and the reader throws. *)
Theorem C40_rejected : forall K ty d h bs fs s, Forall2 (blob_bytes K) (("OSMHeader"%string, d) :: bs) fs -> par_hb K d = Some h -> reads_ok s ->
  ~ (Forall known_feature (hb_features h) /\ type_accepted ty (hb_features h)) ->
  let r := read_pbf K ty (mkIfd (List.concat fs) s) in
  pr_groups r = [] /\
  pr_end r = Throw (if forallb (fun f => String.eqb f "OsmSchema-V0.6" || String.eqb f "DenseNodes" || String.eqb f "HistoricalInformation")%bool (hb_features h)
                    then EOther (if ft_eqb ty FtOSM then 2 else 3) else ERuntime).
Proof. exact header_checked. Qed.
Print Assumptions C40_rejected.
(** Otherwise the blocks are read. *)
Theorem C40_accepted : forall K ty d h bs fs s, Forall2 (blob_bytes K) (("OSMHeader"%string, d) :: bs) fs -> par_hb K d = Some h -> reads_ok s ->
  Forall known_feature (hb_features h) -> type_accepted ty (hb_features h) ->
  exists m, parse_header ty h meta_new = Ok m /\ read_pbf K ty (mkIfd (List.concat fs) s) = parse_blobs K ty bs (Ok tt) m.
Proof. exact header_accepted. Qed.
Print Assumptions C40_accepted.
(** The bounds are not always kept. *)
Theorem C40_bounds_refuted : exists c m file, bounds_ok (mt_bounds m) /\ write_pbf protobuf c m [] [] = Ok file /\
  let r := read_pbf protobuf (cf_type c) (mkIfd file []) in
  pr_end r = Ok tt /\ mt_bounds (pr_meta r) <> mt_bounds m.
Proof. exact bounds_refuted. Qed.
Print Assumptions C40_bounds_refuted.
Example C40_example : let m := mkMeta "" (mkBounds (mkPos (-100) 5) (mkPos 157 500000000)) in
  bounds_ok (mt_bounds m) /\ exists file, write_pbf protobuf ex_cfg m [] [] = Ok file /\
  pr_meta (read_pbf protobuf FtOSM (mkIfd file [])) = mkMeta "osmium" (mkBounds (mkPos (-100) 5) (mkPos 156 500000000)).
Proof. exact example_header. Qed.
Example C40_example_rejected : exists d h f, blob_bytes protobuf ("OSMHeader"%string, d) f /\ par_hb protobuf d = Some h /\
  ~ Forall known_feature (hb_features h).
Proof. exact example_rejected. Qed.

(* ---- C41: granularity ---- *)
(** Any granularities: what becomes of coordinates and of times up to the year 4147. *)
Theorem C41_granularity : forall K c m os sched file, codec_ok K -> gran_ok (cf_gran c) -> gran_ok (cf_dgran c) ->
  Forall object_ok os -> Forall (fun o => Z.abs (o_timestamp (obj_attrs o)) <= 68719476736) os -> few_texts os ->
  writes_complete sched -> write_pbf K c m os sched = Ok file ->
  exists fc ft h chunks ps, pieces os chunks /\ List.length ps = List.length chunks /\ layout K c h ps file /\
    (readable K c h ps -> forall s, reads_ok s ->
       let r := read_pbf K (cf_type c) (mkIfd file s) in
       pr_groups r = flat_map (fun ch => by_kind (map (kept_with c fc ft) ch)) chunks /\ pr_end r = Ok tt) /\
    (forall x, Z.abs x <= 1800000000 -> coord_near (cf_gran c) x (fc x)) /\
    (forall t, Z.abs t <= 68719476736 -> time_near (cf_dgran c) t (ft t)) /\
    (cf_dgran c < 1000 -> forall t, ft t = 0).
Proof. exact pbf_granularity. Qed.
Print Assumptions C41_granularity.
(** A coordinate can be off by more than the granularity, if that is not a multiple of 100 ... *)
Theorem C41_coordinate_refuted : exists c n file n', 1 <= cf_gran c /\ cf_dgran c = 1000 /\ object_ok (ONode n) /\
  write_pbf protobuf c meta_new [ONode n] [] = Ok file /\
  pr_groups (read_pbf protobuf (cf_type c) (mkIfd file [])) = [(NODE, [ONode n'])] /\
  100 * Z.abs (px (n_pos n') - px (n_pos n)) > cf_gran c.
Proof. exact coordinate_refuted. Qed.
Print Assumptions C41_coordinate_refuted.
(** ... times are lost completely with a granularity of less than a second ... *)
Theorem C41_time_refuted : exists c n file n', 1 <= cf_dgran c < 1000 /\ cf_gran c = 100 /\ object_ok (ONode n) /\
  write_pbf protobuf c meta_new [ONode n] [] = Ok file /\
  pr_groups (read_pbf protobuf (cf_type c) (mkIfd file [])) = [(NODE, [ONode n'])] /\
  o_timestamp (n_attrs n) = 1234567890 /\ o_timestamp (n_attrs n') = 0.
Proof. exact time_refuted. Qed.
Print Assumptions C41_time_refuted.
(** ... or are wrong if it is not a whole number of seconds, even times that are multiples of it. *)
Theorem C41_fraction_refuted : exists c n file n', cf_dgran c = 1500 /\ cf_gran c = 100 /\ object_ok (ONode n) /\
  write_pbf protobuf c meta_new [ONode n] [] = Ok file /\
  pr_groups (read_pbf protobuf (cf_type c) (mkIfd file [])) = [(NODE, [ONode n'])] /\
  o_timestamp (n_attrs n) = 1234567890 /\ o_timestamp (n_attrs n') = 823045260.
Proof. exact fraction_refuted. Qed.
Print Assumptions C41_fraction_refuted.
(** A node without a position gets one. *)
Theorem C41_undefined_refuted : exists c n file n', cf_gran c = 1000 /\ cf_dgran c = 1000 /\ object_ok (ONode n) /\
  write_pbf protobuf c meta_new [ONode n] [] = Ok file /\
  pr_groups (read_pbf protobuf (cf_type c) (mkIfd file [])) = [(NODE, [ONode n'])] /\
  pos_defined (n_pos n) = false /\ pos_defined (n_pos n') = true.
Proof. exact undefined_refuted. Qed.
Print Assumptions C41_undefined_refuted.
Example C41_example : gran_ok 10000 /\ gran_ok 60000 /\ exists file n', write_pbf protobuf (ex_gran 10000 60000) meta_new [ex_node1] [] = Ok file /\
  pr_groups (read_pbf protobuf FtOSM (mkIfd file [])) = [(NODE, [ONode n'])] /\ n_pos n' = mkPos 101234600 511234600 /\ o_timestamp (n_attrs n') = 1234567920.
Proof. exact example_granularity. Qed.

(* ---- C58: files of any origin ---- *)
(** Any bytes, any behaviour of read(): if the blocks are well-formed, reading is never undefined. *)
Theorem C58_defined : forall K ty f, codec_ok K ->
  (forall d b, In ("OSMData"%string, d) (fst (read_blobs K f)) -> par_pb K d = Some b -> block_wf b) ->
  pr_end (read_pbf K ty f) <> UB.
Proof. exact read_defined. Qed.
Print Assumptions C58_defined.
Example C58_example : block_wf ex_good /\ exists file,
  store_all protobuf false [("OSMData"%string, ser_pb protobuf ex_good)] (mkOfd [] []) = Ok (mkOfd file []) /\
  read_blobs protobuf (mkIfd file []) = ([("OSMData"%string, ser_pb protobuf ex_good)], Ok tt) /\
  map (fun g => map (fun o => o_id (obj_attrs o)) (snd g)) (pr_groups (read_pbf protobuf FtOSM (mkIfd file []))) = [[5; 6]].
Proof. exact example_good. Qed.
(** Reading a file that is not from this writer can be undefined: an index into the string table that
    is out of range. *)
Theorem C58_bad_index_refuted : exists file b, block_fits b /\
  store_all protobuf false [("OSMHeader"%string, ser_hb protobuf (mkHB None ["OsmSchema-V0.6"%string] None)); ("OSMData"%string, ser_pb protobuf b)] (mkOfd [] [])
    = Ok (mkOfd file []) /\
  pr_end (read_pbf protobuf FtOSM (mkIfd file [])) = UB.
Proof. exact bad_index_refuted. Qed.
Print Assumptions C58_bad_index_refuted.
(** A file with more dense nodes than versions. *)
Theorem C58_bad_dense_refuted : exists file b, block_fits b /\
  store_all protobuf false [("OSMHeader"%string, ser_hb protobuf (mkHB None ["OsmSchema-V0.6"%string] None)); ("OSMData"%string, ser_pb protobuf b)] (mkOfd [] [])
    = Ok (mkOfd file []) /\
  pr_end (read_pbf protobuf FtOSM (mkIfd file [])) = UB.
Proof. exact bad_dense_refuted. Qed.
Print Assumptions C58_bad_dense_refuted.
