(** The theorems about PBF files as they are stated in Props/P_Pbf.v, and the witnesses. *)
From Verif Require Import Base.Prelude Base.SMap Model.Osm Model.Float Model.Utils Model.Attr Model.OsmFile Model.Handler Model.Pbf
  Spec.UtilsSpec Spec.TagsSpec Spec.HandlerSpec Spec.PbfSpec Spec.Protobuf Spec.PbfExamples Proofs.UtilsProofs Proofs.PbfFrameProofs
  Proofs.PbfStringProofs Proofs.PbfDecodeProofs Proofs.PbfWriteProofs Proofs.PbfBlockProofs Proofs.PbfProofs Proofs.PbfSuccessProofs
  Proofs.PbfMainProofs Proofs.ProtobufProofs.

(* ---- blobs ---- *)
Lemma blobs_roundtrip K compress bs file s : codec_ok K ->
  Forall (fun x => slen (fst x) <= 1000 /\ small K compress (snd x)) bs ->
  store_all K compress bs (mkOfd [] []) = Ok (mkOfd file []) -> reads_ok s ->
  read_blobs K (mkIfd file s) = (bs, Ok tt).
Proof.
  intros HK HA E RS. destruct (store_all_read K compress bs _ _ HK (Forall_nil _ : writes_complete (fd_sched (mkOfd [] []))) HA E) as (fs & EF & HB).
  cbn [fd_out app] in EF. rewrite EF, <- (app_nil_r (List.concat fs)). apply read_blobs_complete; [exact HB|exact RS|cbn; lia].
Qed.
Lemma blobs_stored K compress bs : codec_ok K ->
  Forall (fun x => slen (fst x) <= 1000 /\ small K compress (snd x)) bs ->
  exists file, store_all K compress bs (mkOfd [] []) = Ok (mkOfd file []).
Proof.
  intros _ HA. destruct (store_all_ok K compress bs (mkOfd [] [])) as (f & E); [constructor| |].
  - eapply Forall_impl; [|exact HA]. intros x [_ H]. exact H.
  - pose proof (store_all_nil K _ _ _ _ E) as N. destruct f as [o s]. cbn in N. subst s. eauto.
Qed.

Ltac small_tac := split; [vm_compute; discriminate|]; repeat split; vm_compute; discriminate.
Lemma truncated_refuted : exists bs fs x part more, Forall2 (blob_bytes protobuf) bs fs /\ blob_bytes protobuf x (part ++ more) /\
  part <> [] /\ more <> [] /\ read_blobs protobuf (mkIfd (List.concat fs ++ part) []) = (bs, Ok tt).
Proof.
  set (b := mkBlob (Some (list_ascii_of_string "abc")) 3 None None).
  assert (B : blob_bytes protobuf ("OSMData"%string, list_ascii_of_string "abc") (frame protobuf "OSMData" b)).
  { apply (frame_ok protobuf false); [exact protobuf_ok|vm_compute; discriminate|small_tac|reflexivity]. }
  exists [("OSMData"%string, list_ascii_of_string "abc")], [frame protobuf "OSMData" b], ("OSMData"%string, list_ascii_of_string "abc"),
    (firstn 3 (frame protobuf "OSMData" b)), (skipn 3 (frame protobuf "OSMData" b)).
  split; [constructor; [exact B|constructor]|]. split; [rewrite firstn_skipn; exact B|].
  split; [vm_compute; discriminate|]. split; [vm_compute; discriminate|]. vm_compute. reflexivity.
Qed.
Lemma short_write_refuted : exists bs sched f, Forall (fun x => slen (fst x) <= 1000 /\ small protobuf false (snd x)) bs /\
  store_all protobuf false bs (mkOfd [] sched) = Ok f /\ ~ In WErr sched /\ fst (read_blobs protobuf (mkIfd (fd_out f) [])) <> bs.
Proof.
  exists [("OSMData"%string, list_ascii_of_string "abc")], [WAll; WAll; WSome 3]. eexists.
  split; [constructor; [split; [vm_compute; discriminate|small_tac]|constructor]|]. split; [vm_compute; reflexivity|].
  split; [intros [H|[H|[H|[]]]]; discriminate|]. vm_compute. discriminate.
Qed.

(* ---- objects ---- *)
Lemma pbf_roundtrip K c m os sched file : codec_ok K -> default_gran c -> Forall object_ok os -> few_texts os ->
  writes_complete sched -> write_pbf K c m os sched = Ok file ->
  exists h chunks ps, pieces os chunks /\ List.length ps = List.length chunks /\ layout K c h ps file /\
    (readable K c h ps -> forall s, reads_ok s ->
       pr_groups (read_pbf K (cf_type c) (mkIfd file s)) = flat_map (fun ch => by_kind (map (kept c) ch)) chunks /\
       pr_end (read_pbf K (cf_type c) (mkIfd file s)) = Ok tt).
Proof.
  intros HK HG HO FT HW E. destruct (roundtrip K c HK HG m os sched file HO FT HW E) as (h & hb & chunks & ps & _ & _ & HP & HL & LA & R).
  exists h, chunks, ps. do 3 (split; [assumption|]). intros RD s RS. destruct (R RD s RS) as (m' & _ & ER). rewrite ER. auto.
Qed.
Lemma kept_is_type c o : obj_type (kept c o) = obj_type o.
Proof. destruct o; reflexivity. Qed.
Lemma pbf_order K c m os sched file : codec_ok K -> default_gran c -> Forall object_ok os -> few_texts os ->
  writes_complete sched -> write_pbf K c m os sched = Ok file ->
  exists h ps, layout K c h ps file /\
    (readable K c h ps -> forall s, reads_ok s ->
       let r := read_pbf K (cf_type c) (mkIfd file s) in
       pr_end r = Ok tt /\ (forall t, only t (pr_groups r) = ofilter t (map (kept c) os)) /\
       (type_sorted os -> flat_map snd (pr_groups r) = map (kept c) os)).
Proof.
  intros HK HG HO FT HW E. destruct (pbf_roundtrip K c m os sched file HK HG HO FT HW E) as (h & chunks & ps & [HP1 HP2] & HL & LA & R).
  exists h, ps. split; [exact LA|]. intros RD s RS. cbv zeta. destruct (R RD s RS) as [R1 R2]. rewrite R1. split; [exact R2|]. split.
  - intros t. rewrite (chunks_only t (kept c) chunks (kept_is_type c)), HP1. reflexivity.
  - intros TS. rewrite (sorted_chunks (kept c) chunks (kept_is_type c)), HP1; [reflexivity|]. rewrite HP1. exact TS.
Qed.
Lemma pbf_written K c m os sched : codec_ok K -> default_gran c ->
  bounds_defined (mt_bounds m) = false \/ bounds_ok (mt_bounds m) ->
  Forall object_ok os -> Forall near_ids os -> Forall known_members os -> few_texts os -> writes_complete sched ->
  (exists file, write_pbf K c m os sched = Ok file) \/ (cf_compress c = true /\ write_pbf K c m os sched = Throw ERuntime).
Proof.
  intros HK HG HB HO HN HM FT HW. destruct (header_of_ok c m HB) as (hb & EH). destruct (write_ok K c HK HG m os sched hb EH HO HN HM FT HW) as [H|(H1 & H2 & _)]; auto.
Qed.
Ltac ok_tac := repeat (match goal with
  | |- _ /\ _ => split
  | |- Forall _ [] => constructor
  | |- Forall _ (_ :: _) => constructor
  | |- object_ok _ => split
  | |- near_ids _ => split
  | |- attrs_ok _ => unfold attrs_ok
  | |- user_ok _ => unfold user_ok
  | |- member_ok _ => unfold member_ok
  | |- c_tag _ => unfold c_tag
  | |- mid _ => unfold mid
  | |- no_nul _ => unfold no_nul
  | |- True => exact I
  | |- known_members _ => cbn [known_members]
  | |- _ => progress cbn [obj_attrs n_attrs w_attrs r_attrs o_id o_version o_changeset o_timestamp o_uid o_user o_tags n_pos px py w_nodes r_members wn_ref m_ref m_role m_type tkey tvalue ex_attrs ex_bare ex_at ex_n1]
  end); try (vm_compute; intuition congruence); try (vm_compute; intuition discriminate).
Lemma order_refuted : exists c os file, default_gran c /\ Forall object_ok os /\ write_pbf protobuf c meta_new os [] = Ok file /\
  let r := read_pbf protobuf (cf_type c) (mkIfd file []) in
  pr_end r = Ok tt /\ flat_map snd (pr_groups r) <> map (kept c) os.
Proof.
  exists ex_cfg_bare, ex_mixed. eexists. split; [split; reflexivity|]. split; [|split; [vm_compute; reflexivity|]].
  - unfold ex_mixed, ex_bare_way, ex_bare_rel. ok_tac.
  - cbv zeta. split; [vm_compute; reflexivity|]. vm_compute. discriminate.
Qed.
Lemma ex_objects_ok : Forall object_ok ex_objects /\ Forall near_ids ex_objects /\ Forall known_members ex_objects.
Proof. unfold ex_objects, ex_node1, ex_node2, ex_way, ex_rel. ok_tac. Qed.
Lemma distinct_le l : (distinct_strings l <= List.length l)%nat.
Proof.
  unfold distinct_strings. induction l as [|x l IH]; cbn; [lia|]. destruct (in_dec string_dec x l); cbn; lia.
Qed.
Lemma few_if_few os : (List.length (flat_map texts os) <= 1000)%nat -> few_texts os.
Proof.
  intros H a b c -> _. pose proof (distinct_le (flat_map texts b)). rewrite !flat_map_app, !app_length in H. lia.
Qed.
Lemma ex_few : few_texts ex_objects.
Proof. apply few_if_few. vm_compute. lia. Qed.
Lemma ex_sorted : type_sorted ex_objects.
Proof.
  exists [ex_node1; ex_node2], [ex_way], [ex_rel]. split; [reflexivity|].
  repeat split; intros o H; cbn in H; repeat (destruct H as [<-|H]; [reflexivity|]); destruct H.
Qed.
Lemma example_file : default_gran ex_cfg /\ Forall object_ok ex_objects /\ Forall near_ids ex_objects /\ Forall known_members ex_objects /\ few_texts ex_objects /\
  type_sorted ex_objects /\
  exists h ps file, write_pbf protobuf ex_cfg meta_new ex_objects [] = Ok file /\ layout protobuf ex_cfg h ps file /\ readable protobuf ex_cfg h ps /\
    read_pbf protobuf FtOSM (mkIfd file [RSome 7]) =
      mkPRd [(NODE, map (kept ex_cfg) [ex_node1; ex_node2]); (WAY, map (kept ex_cfg) [ex_way]); (RELATION, map (kept ex_cfg) [ex_rel])]
            (mkMeta "osmium" bounds_new) (Ok tt).
Proof.
  destruct ex_objects_ok as (A & B & C). split; [split; reflexivity|]. do 3 (split; [assumption|]). split; [exact ex_few|]. split; [exact ex_sorted|].
  set (bs := match write_pbf protobuf ex_cfg meta_new ex_objects [] with Ok f => fst (read_blobs protobuf (mkIfd f [])) | _ => [] end).
  vm_compute in bs. exists (snd (hd (""%string, []) bs)), (map snd (tl bs)). eexists. split; [vm_compute; reflexivity|].
  split; [vm_compute; reflexivity|]. split; [split; [small_tac|repeat constructor; vm_compute; discriminate]|]. vm_compute. reflexivity.
Qed.
Lemma pbf_dense K c1 c2 m1 m2 os sched1 sched2 file1 file2 : codec_ok K -> default_gran c1 -> default_gran c2 -> same_contents c1 c2 ->
  Forall object_ok os -> few_texts os -> writes_complete sched1 -> writes_complete sched2 ->
  write_pbf K c1 m1 os sched1 = Ok file1 -> write_pbf K c2 m2 os sched2 = Ok file2 ->
  exists h1 ps1 h2 ps2, layout K c1 h1 ps1 file1 /\ layout K c2 h2 ps2 file2 /\
    (readable K c1 h1 ps1 -> readable K c2 h2 ps2 -> forall s1 s2, reads_ok s1 -> reads_ok s2 ->
       let r1 := read_pbf K (cf_type c1) (mkIfd file1 s1) in
       let r2 := read_pbf K (cf_type c2) (mkIfd file2 s2) in
       pr_end r1 = Ok tt /\ pr_end r2 = Ok tt /\ (forall t, only t (pr_groups r1) = only t (pr_groups r2)) /\
       (type_sorted os -> flat_map snd (pr_groups r1) = flat_map snd (pr_groups r2))).
Proof.
  intros HK G1 G2 [S1 S2] HO FT W1 W2 E1 E2.
  destruct (pbf_order K c1 m1 os sched1 file1 HK G1 HO FT W1 E1) as (h1 & ps1 & L1 & R1).
  destruct (pbf_order K c2 m2 os sched2 file2 HK G2 HO FT W2 E2) as (h2 & ps2 & L2 & R2).
  exists h1, ps1, h2, ps2. split; [exact L1|]. split; [exact L2|]. intros RD1 RD2 s1 s2 RS1 RS2. cbv zeta.
  destruct (R1 RD1 s1 RS1) as (A1 & B1 & C1). destruct (R2 RD2 s2 RS2) as (A2 & B2 & C2).
  assert (EK : map (kept c1) os = map (kept c2) os).
  { apply map_ext. intros o. unfold kept, kept_with, kept_attrs. rewrite S1, S2. reflexivity. }
  split; [exact A1|]. split; [exact A2|]. split.
  - intros t. rewrite B1, B2, EK. reflexivity.
  - intros TS. rewrite C1, C2, EK by exact TS. reflexivity.
Qed.
Lemma example_dense : exists file1 file2, write_pbf protobuf ex_cfg meta_new ex_objects [] = Ok file1 /\
  write_pbf protobuf ex_cfg_plain meta_new ex_objects [] = Ok file2 /\ same_contents ex_cfg ex_cfg_plain /\ file1 <> file2 /\
  pr_groups (read_pbf protobuf FtOSM (mkIfd file1 [])) = pr_groups (read_pbf protobuf FtOSM (mkIfd file2 [])).
Proof.
  eexists. eexists. split; [vm_compute; reflexivity|]. split; [vm_compute; reflexivity|]. split; [split; reflexivity|].
  split; [discriminate|]. vm_compute. reflexivity.
Qed.

(* ---- blocks ---- *)
Lemma pbf_blocks K c m os sched w : codec_ok K -> default_gran c -> Forall object_ok os -> few_texts os ->
  written_so_far K c m os sched w ->
  exists h chunks l ps, List.concat chunks ++ l = os /\ Forall (fun ch => ch <> [] /\ Z.of_nat (List.length ch) <= 8000) chunks /\
    Z.of_nat (List.length l) <= 8000 /\ w_contents w = Z.of_nat (List.length l) /\ List.length ps = List.length chunks /\
    store_all K (cf_compress c) (("OSMHeader"%string, h) :: map (fun b => ("OSMData"%string, b)) ps) (mkOfd [] sched) = Ok (w_fd w).
Proof.
  intros HK HG HO FT (w1 & EI & E). unfold pbf_init in EI. destruct (header_of c m) as [hb|?| |] eqn:EH; cbn [obind] in EI; try discriminate.
  destruct (store_blob K (cf_compress c) "OSMHeader" (ser_hb K hb) _) as [f|?| |] eqn:ES; cbn [obind] in EI; try discriminate.
  change (w_fd (pwriter_new (mkOfd [] sched))) with (mkOfd [] sched) in ES. injection EI as <-.
  change (with_fd f (pwriter_new (mkOfd [] sched))) with (pwriter_new f) in E.
  pose proof (d_WC c HG) as WC. pose proof (d_WT c HG) as WT. pose proof (d_HC c HG) as HC. pose proof (d_HT c HG) as HT.
  destruct (run_objects K c (fun x => x) (fun x => x) (fun x => x) (fun x => x) T53 HK WC WT HC HT
    (fun x H => mid_i64 _ (d_BE x H)) (fun t H => mid_i64 _ (d_BT t H)) sched (ser_hb K hb) os [] [] [] [] (pwriter_new f) w) as (ch & ps & l & RN & EQ); auto.
  { constructor; [apply winv_new|cbn; lia|constructor|unfold room; cbn; lia|cbn [data map store_all]; rewrite ES; reflexivity|constructor]. }
  { apply fine_default; exact HO. }
  exists (ser_hb K hb), ch, l, ps. destruct RN as [I1 I2 I3 I4 I5 I6]. split; [exact EQ|]. split.
  { clear - I6. induction I6 as [|a b la lb (A & B & _) _ IH]; constructor; auto. }
  split; [exact I2|]. split; [apply (wi_contents _ _ _ _ _ I1)|]. split; [eapply pieces_length; exact I6|exact I5].
Qed.
Lemma final_empty K c w w' : w_contents w >= 0 -> pbf_final K c w = Ok w' -> w_contents w' = 0.
Proof.
  intros H E. unfold pbf_final in E. destruct (_ >? 0) eqn:G.
  - unfold store_primitive_block in E. destruct (final_block K c w); cbn [obind] in E; try discriminate.
    destruct (store_blob K _ _ _ _); cbn [obind] in E; try discriminate. injection E as <-. reflexivity.
  - injection E as <-. lia.
Qed.
Lemma mixed_refuted : exists c os file, default_gran c /\ Forall object_ok os /\ write_pbf protobuf c meta_new os [] = Ok file /\
  exists h p b, layout protobuf c h [p] file /\ par_pb protobuf p = Some b /\
    exists g1 g2, In g1 (pb_groups b) /\ In g2 (pb_groups b) /\ g_ways g1 <> [] /\ g_rels g2 <> [].
Proof.
  exists ex_cfg_bare, ex_mixed.
  set (bs := match write_pbf protobuf ex_cfg_bare meta_new ex_mixed [] with Ok f => fst (read_blobs protobuf (mkIfd f [])) | _ => [] end).
  vm_compute in bs.
  eexists. split; [split; reflexivity|]. split; [|split; [vm_compute; reflexivity|]].
  - unfold ex_mixed, ex_bare_way, ex_bare_rel. ok_tac.
  - exists (snd (hd (""%string, []) bs)), (snd (hd (""%string, []) (tl bs))). eexists. split; [vm_compute; reflexivity|].
    split; [vm_compute; reflexivity|]. eexists. eexists. split; [left; reflexivity|]. split; [right; left; reflexivity|]. split; discriminate.
Qed.
Lemma refused_refuted : exists c r w1 w2 w3 r', default_gran c /\ object_ok (ORel r) /\
  pbf_init protobuf c meta_new (pwriter_new (mkOfd [] [])) = Ok w1 /\ pbf_object protobuf c (ORel r) w1 = Ok (w2, Some ERuntime) /\
  pbf_final protobuf c w2 = Ok w3 /\
  pr_groups (read_pbf protobuf (cf_type c) (mkIfd (fd_out (w_fd w3)) [])) = [(RELATION, [ORel r'])] /\ r_members r' <> r_members r.
Proof.
  exists ex_cfg_bare, (ex_bare_rel 1 [mkMember "n" 1 "a"; mkMember "x" 2 "b"; mkMember "n" 3 "c"]). do 4 eexists.
  split; [split; reflexivity|]. split; [unfold ex_bare_rel; ok_tac|].
  split; [vm_compute; reflexivity|]. split; [vm_compute; reflexivity|]. split; [vm_compute; reflexivity|].
  split; [vm_compute; reflexivity|]. discriminate.
Qed.
Lemma example_blocks : exists w, written_so_far protobuf ex_cfg meta_new ex_objects [] w /\ w_contents w = 4 /\
  Forall object_ok ex_objects /\ few_texts ex_objects.
Proof.
  eexists. split; [eexists; split; [vm_compute; reflexivity|vm_compute; reflexivity]|]. split; [reflexivity|]. split; [apply ex_objects_ok|exact ex_few].
Qed.

(* ---- header ---- *)
Lemma pbf_header K c m os sched file : codec_ok K -> default_gran c -> Forall object_ok os -> few_texts os ->
  writes_complete sched -> write_pbf K c m os sched = Ok file ->
  exists h ps, layout K c h ps file /\
    (readable K c h ps -> forall s, reads_ok s ->
       let m' := pr_meta (read_pbf K (cf_type c) (mkIfd file s)) in
       mt_generator m' = cf_generator c /\
       (bounds_defined (mt_bounds m) = false -> mt_bounds m' = bounds_new) /\
       (bounds_ok (mt_bounds m) -> pos_almost (bottom_left (mt_bounds m)) (bottom_left (mt_bounds m')) /\
                                   pos_almost (top_right (mt_bounds m)) (top_right (mt_bounds m')))).
Proof.
  intros HK HG HO FT HW E. destruct (roundtrip K c HK HG m os sched file HO FT HW E) as (h & hb & chunks & ps & EH & _ & HP & HL & LA & R).
  exists h, ps. split; [exact LA|]. intros RD s RS. cbv zeta. destruct (R RD s RS) as (m' & EP & ER). rewrite ER. cbn [pr_meta].
  exact (header_meta c m hb m' EH EP).
Qed.
Lemma header_features K c m os sched file : codec_ok K -> default_gran c -> Forall object_ok os -> few_texts os ->
  writes_complete sched -> write_pbf K c m os sched = Ok file ->
  exists h hb ps, layout K c h ps file /\ (readable K c h ps -> par_hb K h = Some hb) /\
    NoDup (hb_features hb) /\ forall f, In f (hb_features hb) <-> announced c f.
Proof.
  intros HK HG HO FT HW E. destruct (roundtrip K c HK HG m os sched file HO FT HW E) as (h & hb & chunks & ps & EH & E1 & HP & HL & LA & R).
  exists h, hb, ps. split; [exact LA|]. split.
  - intros [RD _]. subst h. apply (ok_hb K HK); [|apply RD]. exact (header_of_fits c (fun x => x) (fun x => x) (fun x => x) (fun x => x) T53 (d_WC c HG) (d_WT c HG) (d_HC c HG) (d_HT c HG) (fun x H => mid_i64 _ (d_BE x H)) (fun t H => mid_i64 _ (d_BT t H)) m hb EH).
  - assert (F : hb_features hb = ["OsmSchema-V0.6"%string] ++ (if cf_dense c then ["DenseNodes"%string] else []) ++
            (if ft_eqb (cf_type c) FtHistory then ["HistoricalInformation"%string] else [])).
    { unfold header_of in EH. cbv zeta in EH. match type of EH with obind ?x _ = _ => destruct x as [bb|e| |] end; cbn [obind] in EH; try discriminate.
      injection EH as <-. reflexivity. }
    rewrite F. clear. unfold announced. split.
    + destruct (cf_dense c), (cf_type c); cbn; repeat (apply NoDup_cons; [cbn; intuition discriminate|]); apply NoDup_nil.
    + intros f. destruct (cf_dense c), (cf_type c); cbn; intuition (subst; auto; discriminate).
Qed.
Lemma header_accepted K ty d h bs fs s : Forall2 (blob_bytes K) (("OSMHeader"%string, d) :: bs) fs -> par_hb K d = Some h -> reads_ok s ->
  Forall known_feature (hb_features h) -> type_accepted ty (hb_features h) ->
  exists m, parse_header ty h meta_new = Ok m /\ read_pbf K ty (mkIfd (List.concat fs) s) = parse_blobs K ty bs (Ok tt) m.
Proof.
  intros HB HP RS H1 H2. rewrite (read_header K ty d h bs fs s HB HP RS). pose proof (parse_header_spec ty h meta_new) as S.
  destruct (parse_header ty h meta_new) as [m|e| |]; try contradiction; [eauto|exfalso].
  destruct e; try contradiction.
  repeat match type of S with context [match ?x with _ => _ end] => destruct x; try contradiction end.
  all: try (destruct S as [-> S]; cbn in H2; auto; fail).
Qed.
Lemma bounds_refuted : exists c m file, bounds_ok (mt_bounds m) /\ write_pbf protobuf c m [] [] = Ok file /\
  let r := read_pbf protobuf (cf_type c) (mkIfd file []) in
  pr_end r = Ok tt /\ mt_bounds (pr_meta r) <> mt_bounds m.
Proof.
  exists ex_cfg, (mkMeta "" (mkBounds (mkPos (-100) 5) (mkPos 157 500000000))). eexists. split; [|split; [vm_compute; reflexivity|]].
  - cbn. unfold bounds_ok, in_i32. cbn. unfold int32_min, int32_max, invalid_coord, int32_max. lia.
  - cbv zeta. split; [vm_compute; reflexivity|]. vm_compute. discriminate.
Qed.
Lemma example_header : let m := mkMeta "" (mkBounds (mkPos (-100) 5) (mkPos 157 500000000)) in
  bounds_ok (mt_bounds m) /\ exists file, write_pbf protobuf ex_cfg m [] [] = Ok file /\
  pr_meta (read_pbf protobuf FtOSM (mkIfd file [])) = mkMeta "osmium" (mkBounds (mkPos (-100) 5) (mkPos 156 500000000)).
Proof.
  cbv zeta. split.
  - cbn. unfold bounds_ok, in_i32. cbn. unfold int32_min, int32_max, invalid_coord, int32_max. lia.
  - eexists. split; [vm_compute; reflexivity|vm_compute; reflexivity].
Qed.
Lemma example_rejected : exists d h f, blob_bytes protobuf ("OSMHeader"%string, d) f /\ par_hb protobuf d = Some h /\
  ~ Forall known_feature (hb_features h).
Proof.
  set (h := mkHB None ["OsmSchema-V0.6"%string; "Sort.Type_then_ID"%string] None).
  exists (ser_hb protobuf h), h, (frame protobuf "OSMHeader" (mkBlob (Some (ser_hb protobuf h)) (blen (ser_hb protobuf h)) None None)).
  split; [|split; [vm_compute; reflexivity|]].
  - apply (frame_ok protobuf false); [exact protobuf_ok|vm_compute; discriminate|small_tac|reflexivity].
  - intros H. inversion H as [|? ? _ H2]; subst. inversion H2 as [|? ? H3 _]; subst. destruct H3 as [H3|[H3|H3]]; discriminate.
Qed.

(* ---- granularity ---- *)
Lemma pbf_granularity K c m os sched file : codec_ok K -> gran_ok (cf_gran c) -> gran_ok (cf_dgran c) ->
  Forall object_ok os -> Forall (fun o => Z.abs (o_timestamp (obj_attrs o)) <= 68719476736) os -> few_texts os ->
  writes_complete sched -> write_pbf K c m os sched = Ok file ->
  exists fc ft h chunks ps, pieces os chunks /\ List.length ps = List.length chunks /\ layout K c h ps file /\
    (readable K c h ps -> forall s, reads_ok s ->
       let r := read_pbf K (cf_type c) (mkIfd file s) in
       pr_groups r = flat_map (fun ch => by_kind (map (kept_with c fc ft) ch)) chunks /\ pr_end r = Ok tt) /\
    (forall x, Z.abs x <= 1800000000 -> coord_near (cf_gran c) x (fc x)) /\
    (forall t, Z.abs t <= 68719476736 -> time_near (cf_dgran c) t (ft t)) /\
    (cf_dgran c < 1000 -> forall t, ft t = 0).
Proof.
  intros HK HG HD HO HT FT HW E.
  destruct (roundtrip_gran K c HK HG HD m os sched file HO HT FT HW E) as (h & hb & chunks & ps & _ & _ & HP & HL & LA & R).
  exists (fcg c), (ftg c), h, chunks, ps. do 3 (split; [assumption|]). split; [|split; [|split]].
  - intros RD s RS. cbv zeta. destruct (R RD s RS) as (m' & _ & ER). rewrite ER. auto.
  - intros x Hx. apply coord_near_ok; assumption.
  - intros t Ht. apply time_near_ok; assumption.
  - intros H t. apply time_lost; assumption.
Qed.
Lemma coordinate_refuted : exists c n file n', 1 <= cf_gran c /\ cf_dgran c = 1000 /\ object_ok (ONode n) /\
  write_pbf protobuf c meta_new [ONode n] [] = Ok file /\
  pr_groups (read_pbf protobuf (cf_type c) (mkIfd file [])) = [(NODE, [ONode n'])] /\
  100 * Z.abs (px (n_pos n') - px (n_pos n)) > cf_gran c.
Proof.
  exists (ex_gran 3 1000), (ex_at 1 1234567890). do 2 eexists. split; [discriminate|]. split; [reflexivity|]. split; [unfold ex_at; ok_tac|].
  split; [vm_compute; reflexivity|]. split; [vm_compute; reflexivity|]. reflexivity.
Qed.
Lemma time_refuted : exists c n file n', 1 <= cf_dgran c < 1000 /\ cf_gran c = 100 /\ object_ok (ONode n) /\
  write_pbf protobuf c meta_new [ONode n] [] = Ok file /\
  pr_groups (read_pbf protobuf (cf_type c) (mkIfd file [])) = [(NODE, [ONode n'])] /\
  o_timestamp (n_attrs n) = 1234567890 /\ o_timestamp (n_attrs n') = 0.
Proof.
  exists (ex_gran 100 500), (ex_at 1 1234567890). do 2 eexists. split; [cbn; lia|]. split; [reflexivity|]. split; [unfold ex_at; ok_tac|].
  split; [vm_compute; reflexivity|]. split; [vm_compute; reflexivity|]. split; reflexivity.
Qed.
Lemma fraction_refuted : exists c n file n', cf_dgran c = 1500 /\ cf_gran c = 100 /\ object_ok (ONode n) /\
  write_pbf protobuf c meta_new [ONode n] [] = Ok file /\
  pr_groups (read_pbf protobuf (cf_type c) (mkIfd file [])) = [(NODE, [ONode n'])] /\
  o_timestamp (n_attrs n) = 1234567890 /\ o_timestamp (n_attrs n') = 823045260.
Proof.
  exists (ex_gran 100 1500), (ex_at 1 1234567890). do 2 eexists. split; [reflexivity|]. split; [reflexivity|]. split; [unfold ex_at; ok_tac|].
  split; [vm_compute; reflexivity|]. split; [vm_compute; reflexivity|]. split; reflexivity.
Qed.
Lemma undefined_refuted : exists c n file n', cf_gran c = 1000 /\ cf_dgran c = 1000 /\ object_ok (ONode n) /\
  write_pbf protobuf c meta_new [ONode n] [] = Ok file /\
  pr_groups (read_pbf protobuf (cf_type c) (mkIfd file [])) = [(NODE, [ONode n'])] /\
  pos_defined (n_pos n) = false /\ pos_defined (n_pos n') = true.
Proof.
  exists (ex_gran 1000 1000), (ex_at invalid_coord 1234567890). do 2 eexists. split; [reflexivity|]. split; [reflexivity|]. split; [unfold ex_at; ok_tac|].
  split; [vm_compute; reflexivity|]. split; [vm_compute; reflexivity|]. split; reflexivity.
Qed.
Lemma example_granularity : gran_ok 10000 /\ gran_ok 60000 /\ exists file n', write_pbf protobuf (ex_gran 10000 60000) meta_new [ex_node1] [] = Ok file /\
  pr_groups (read_pbf protobuf FtOSM (mkIfd file [])) = [(NODE, [ONode n'])] /\ n_pos n' = mkPos 101234600 511234600 /\ o_timestamp (n_attrs n') = 1234567920.
Proof.
  split; [unfold gran_ok; lia|]. split; [unfold gran_ok; lia|]. do 2 eexists. split; [vm_compute; reflexivity|]. split; [vm_compute; reflexivity|].
  split; reflexivity.
Qed.

(* ---- bad files ---- *)
Lemma bad_index_refuted : exists file b, block_fits b /\
  store_all protobuf false [("OSMHeader"%string, ser_hb protobuf (mkHB None ["OsmSchema-V0.6"%string] None)); ("OSMData"%string, ser_pb protobuf b)] (mkOfd [] [])
    = Ok (mkOfd file []) /\
  pr_end (read_pbf protobuf FtOSM (mkIfd file [])) = UB.
Proof.
  eexists. exists ex_bad_index. split; [|split; [vm_compute; reflexivity|vm_compute; reflexivity]].
  unfold block_fits, ex_bad_index. cbn. repeat (constructor || split); vm_compute; intuition discriminate.
Qed.
Lemma bad_dense_refuted : exists file b, block_fits b /\
  store_all protobuf false [("OSMHeader"%string, ser_hb protobuf (mkHB None ["OsmSchema-V0.6"%string] None)); ("OSMData"%string, ser_pb protobuf b)] (mkOfd [] [])
    = Ok (mkOfd file []) /\
  pr_end (read_pbf protobuf FtOSM (mkIfd file [])) = UB.
Proof.
  eexists. exists ex_bad_dense. split; [|split; [vm_compute; reflexivity|vm_compute; reflexivity]].
  unfold block_fits, ex_bad_dense. cbn. repeat (constructor || split); vm_compute; intuition discriminate.
Qed.
