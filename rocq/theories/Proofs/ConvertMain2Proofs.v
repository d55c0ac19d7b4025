(** osmium_convert: the theorems. *)
From Verif Require Import Base.Prelude Model.Osm Model.OsmFile Model.Handler Model.Pbf Model.Xml Model.Progress Model.Convert Model.ConvertMain
  Spec.HandlerSpec Spec.OsmFileSpec Spec.ConvertSpec Spec.ConvertMainSpec
  Proofs.HandlerProofs Proofs.ConvertNoStop Proofs.ConvertProofs Proofs.Convert2Proofs Proofs.OsmFileProofs Proofs.ConvertMainProofs.
From Verif Require Model.Ogr.
From Verif Require Spec.PbfSpec Spec.XmlSpec Spec.XmlText.
From Verif Require Proofs.PbfProofs Proofs.PbfMainProofs Proofs.PbfTheorems Proofs.XmlTheorems Proofs.XmlFileProofs Proofs.XmlReadProofs.

Section Env.
  Context {L E : Type}.
  Variable v : environment L E.

  (* ---- files ---- *)
  Lemma input_other f n b w : of_name f <> n -> input_bytes v f (wd_set n b w) = input_bytes v f w.
  Proof. intros H. apply String.eqb_neq in H. unfold input_bytes. destruct (of_enc f); cbn [wd_set wd_files wd_stdin]; rewrite H; reflexivity. Qed.
  Lemma load_other f n b w : of_name f <> n -> load v f (wd_set n b w) = load v f w.
  Proof. intros H. unfold load. rewrite input_other by exact H. reflexivity. Qed.
  Lemma arrived_files f wr data w n : n <> of_name f -> wd_files (fst (arrived v f wr data w)) n = wd_files w n.
  Proof.
    intros H. apply String.eqb_neq in H. unfold arrived. destruct (of_enc f); try (destruct wr; [destruct (ev_zip v _ data)|]);
      try (destruct (String.eqb (of_name f) "")); cbn [fst wd_set wd_files wd_print]; rewrite ?H; reflexivity.
  Qed.
  Lemma arrived_stdin f wr data w : wd_stdin (fst (arrived v f wr data w)) = wd_stdin w.
  Proof.
    unfold arrived. destruct (of_enc f); try (destruct wr; [destruct (ev_zip v _ data)|]);
      try (destruct (String.eqb (of_name f) "")); reflexivity.
  Qed.
  Lemma opened_files f w n : n <> of_name f -> wd_files (fst (open_output v f w)) n = wd_files w n.
  Proof.
    intros H. apply String.eqb_neq in H. unfold open_output. destruct (of_enc f); destruct (String.eqb (of_name f) ""); destruct (ev_creates v (of_name f));
      cbn [negb andb fst wd_set wd_files]; rewrite ?H; reflexivity.
  Qed.
  Lemma opened_stdin f w : wd_stdin (fst (open_output v f w)) = wd_stdin w.
  Proof.
    unfold open_output. destruct (of_enc f); destruct (String.eqb (of_name f) ""); destruct (ev_creates v (of_name f)); reflexivity.
  Qed.
  Lemma main_files o w n : n <> of_name (convert_file (nth 1 (co_args o) ""%string) (co_to o)) \/ (2 < List.length (co_args o))%nat ->
    wd_files (fst (convert_main v o w)) n = wd_files w n.
  Proof.
    unfold convert_main. destruct (co_args o) as [|a1 [|a2 [|a3 ar]]]; [| | |reflexivity]; (intros [H|H]; [|cbn in H; lia]);
      cbv zeta; match goal with |- context[open_output v ?f w] => pose proof (opened_files f w n H) as O; destruct (open_output v f w) as [w1 [wr|x| |]] end; cbn [fst] in *; try exact O;
      (match goal with |- context[load v ?f ?w1] => destruct (load v f w1) as [l|x| |] end; cbn [fst]; try exact O; [|now rewrite arrived_files]);
      (match goal with |- context[write_out v ?f ?m ?r] => destruct (write_out v f m r) as [[data shown] e] end;
       match goal with |- context[arrived v ?f ?wr ?data ?w1] => match goal with H : n <> _ |- _ => pose proof (arrived_files f wr data w1 n H) as A end; destruct (arrived v f wr data w1) as [w2 ok] end;
       cbn [fst wd_print wd_files] in *; congruence).
  Qed.

  (* ---- a run that ends normally ---- *)
  Lemma main_ok o w w' : convert_main v o w = (w', Ok tt) -> exists wr l data shown,
    let infile := convert_file (nth 0 (co_args o) ""%string) (co_from o) in
    let outfile := convert_file (nth 1 (co_args o) ""%string) (co_to o) in
    let w1 := fst (open_output v outfile w) in
    (List.length (co_args o) <= 2)%nat /\
    snd (open_output v outfile w) = Ok wr /\ load v infile w1 = Ok l /\
    write_out v outfile (match ld_init l with Some m => m | None => meta_new end) (ld_reading l) = (data, shown, Ok tt) /\
    snd (arrived v outfile wr data w1) = true /\ w' = wd_print shown (fst (arrived v outfile wr data w1)).
  Proof.
    unfold convert_main. destruct (co_args o) as [|a1 [|a2 [|a3 ar]]]; [| | |discriminate];
      (cbv zeta; match goal with |- context[open_output v ?f w] => destruct (open_output v f w) as [w1 [wr|x| |]] end; try discriminate;
       match goal with |- context[load v ?f ?w1] => destruct (load v f w1) as [l|x| |] eqn:LD end; try discriminate;
       match goal with |- context[write_out v ?f ?m ?r] => destruct (write_out v f m r) as [[data shown] e] eqn:WO end;
       match goal with |- context[arrived v ?f ?wr ?data ?w1] => destruct (arrived v f wr data w1) as [w2 ok] eqn:AR end;
       destruct e as [[]|x| |]; try discriminate; destruct ok; try discriminate; intros H; injection H as <-;
       do 4 eexists; cbn [fst snd]; split; [cbn; lia|]; split; [reflexivity|]; split; [eassumption|]; split; [eassumption|];
       match goal with H : arrived _ _ _ _ _ = _ |- _ => rewrite H end; split; reflexivity).
  Qed.

  (* ---- what is written ---- *)
  Lemma load_file f w l : load v f w = Ok l -> exists d, input_bytes v f w = Ok d /\ l = read_bytes v f d.
  Proof. unfold load. destruct (input_bytes v f w); cbn [obind]; try discriminate. intros H. injection H as <-. eauto. Qed.
  Lemma xml_enc f d : of_enc f <> FePBF -> exists bufs, bufs = ev_cut v (text_of d) /\
    read_bytes v f d = mkLoaded (xml_reading (read_xml (ev_expat v) (ev_e0 v) bufs)) (loop_meta v bufs (ev_e0 v) x_new) (x_meta (fst (read_xml (ev_expat v) (ev_e0 v) bufs))).
  Proof. intros H. exists (ev_cut v (text_of d)). split; [reflexivity|]. unfold read_bytes. destruct (of_enc f); [congruence|reflexivity..]. Qed.
  Lemma write_xml_out f m r data shown : works v -> of_enc f <> FePBF -> file_read r -> fst r <> [] ->
    write_out v f m r = (data, shown, Ok tt) -> read_fully r /\
    exists l, convert_to_xml (ev_lib v) (ev_free v) (ev_l0 v) (of_type f) "osmium_convert" m r = (l, true, Ok tt) /\ data = bytes_of (ev_contents v l).
  Proof.
    intros WK NE F NG H. 
    assert (H2 : (let '(s, h, _) := input_read (and_progress v (xml_out (ev_lib v) (ev_free v) (of_type f) "osmium_convert" m)) r
                    (mkXO (ev_l0 v) None false, progress_new 1000 (ev_tty v)) in
                  (bytes_of (ev_contents v (xo_lib (fst s))), bytes_of (p_out (snd s)), end_of h)) = (data, shown, Ok tt))
      by (revert H; unfold write_out; destruct (of_enc f); [congruence|exact (fun x => x)..]).
    clear H. destruct (input_read (and_progress v _) r _) as [[s h] b] eqn:I. injection H2 as <- <- EH.
    assert (h = None) by (destruct h as [[]|]; [discriminate..|reflexivity]). subst h. clear EH.
    destruct (both_run v (xml_out (ev_lib v) (ev_free v) (of_type f) "osmium_convert" m) ltac:(split; reflexivity)
      (xml_never (ev_lib v) (ev_free v) (of_type f) "osmium_convert" m) r _ _ s b F I) as (RF & b' & I2).
    split; [exact RF|]. exists (xo_lib (fst s)). split; [|reflexivity].
    assert (C : convert_to_xml (ev_lib v) (ev_free v) (ev_l0 v) (of_type f) "osmium_convert" m r = (xo_lib (fst s), xo_flushed (fst s), Ok tt))
      by (unfold convert_to_xml; rewrite I2; reflexivity).
    rewrite C. f_equal. f_equal.
    apply (to_xml_is_write (ev_lib v) (ev_free v) (of_type f) "osmium_convert" m (ev_l0 v) r _ _ F RF NG) in C.
    destruct (XmlTheorems.xml_write_error (ev_lib v) (ev_free v) (ev_l0 v) (of_type f) "osmium_convert" (mt_bounds m) (objects_of r) _ C eq_refl) as (cs & l1 & _ & _ & X).
    cbn [fst] in X. pose proof (wk_flush v WK l1) as Y. rewrite <- X in Y. exact Y.
  Qed.
  Lemma write_pbf_out f m r data shown : of_enc f = FePBF -> file_read r ->
    write_out v f m r = (data, shown, Ok tt) -> read_fully r /\
    convert_to_pbf (ev_codec v) (convert_cfg (of_type f)) m (ev_ws v) r = Ok data.
  Proof.
    intros NE F H. unfold write_out in H. rewrite NE in H.
    destruct (input_read (and_progress v _) r _) as [[s h] b] eqn:I. injection H as <- <- EH.
    assert (h = None) by (destruct h as [[]|]; [discriminate..|reflexivity]). subst h. clear EH.
    destruct (both_run v (pbf_out (ev_codec v) (convert_cfg (of_type f)) m) ltac:(split; reflexivity)
      (pbf_never (ev_codec v) (convert_cfg (of_type f)) m) r _ _ s b F I) as (RF & b' & I2).
    split; [exact RF|]. unfold convert_to_pbf. rewrite I2. reflexivity.
  Qed.

  Lemma nothing_shown f m r data shown e : file_read r -> ev_tty v = false -> write_out v f m r = (data, shown, Ok e) -> shown = [].
  Proof.
    intros F TT H.
    assert (X : forall W (out : callback -> W -> W * option halt) s0, quiet out -> never_stops out -> forall s h b,
      input_read (and_progress v out) r (s0, progress_new 1000 (ev_tty v)) = (s, h, b) -> h = None -> p_out (snd s) = ""%string).
    { intros W out s0 Q N s h b I ->. destruct (both_run v out Q N r s0 _ s b F I) as (RF & b' & I2).
      destruct (both_same v out Q N r s0 (progress_new 1000 (ev_tty v)) _ _ _ F RF TT I2) as (p' & I3 & P). rewrite I3 in I. injection I as <- _. exact P. }
    unfold write_out in H.
    assert (D : forall h, end_of h = Ok e -> h = None) by (intros [[]|]; [discriminate..|reflexivity]).
    destruct (of_enc f);
      (match type of H with context[input_read (and_progress v ?out) r (?s0, _)] => specialize (X _ out s0) end;
       destruct (input_read (and_progress v _) r _) as [[s h] b] eqn:I; apply pair_equal_spec in H; destruct H as [H HE];
       apply pair_equal_spec in H; destruct H as [_ <-]; rewrite (X ltac:(split; reflexivity) ltac:(first [apply pbf_never|apply xml_never]) s h b eq_refl (D h HE)); reflexivity).
  Qed.
  Lemma xml_data f m r lx : works v -> of_enc f <> FePBF -> file_read r -> fst r <> [] ->
    Forall XmlSpec.in_range (objects_of r) -> Forall XmlSpec.has_xml_texts (objects_of r) -> XmlSpec.bounds_in_range (mt_bounds m) ->
    convert_to_xml (ev_lib v) (ev_free v) (ev_l0 v) (of_type f) "osmium_convert" m r = (lx, true, Ok tt) ->
    let l2 := read_bytes v f (bytes_of (ev_contents v lx)) in
    read_fully (ld_reading l2) /\ objects_of (ld_reading l2) = map (XmlSpec.kept (of_type f)) (objects_of r) /\
    ld_meta l2 = mkMeta "osmium_convert" (XmlSpec.kept_bounds (mt_bounds m)).
  Proof.
    intros WK NE F NG IR TX BR CX. cbv zeta.
    destruct (xml_enc f (bytes_of (ev_contents v lx)) NE) as (bufs & EB & ->). cbn [ld_reading ld_meta].
    rewrite text_bytes in EB. destruct (wk_cut v WK (ev_contents v lx)) as (bs & CB & JB & NB). rewrite CB in EB. subst bufs.
    refine (convert_xml L E (ev_lib v) (ev_free v) (ev_contents v) (ev_l0 v) (ev_expat v) (ev_e0 v) (wk_xml v WK) (of_type f) "osmium_convert"%string m _ lx F NG IR TX BR _ CX bs JB NB).
    apply XmlFileProofs.plain_text. XmlFileProofs.plain_lit.
  Qed.
  Lemma pbf_data m r ft data : works v -> file_read r -> fst r <> [] -> Forall PbfSpec.object_ok (objects_of r) -> PbfSpec.few_texts (objects_of r) ->
    read_fully r -> convert_to_pbf (ev_codec v) (convert_cfg ft) m (ev_ws v) r = Ok data ->
    exists h ps, PbfSpec.layout (ev_codec v) (convert_cfg ft) h ps data /\
      (PbfSpec.readable (ev_codec v) (convert_cfg ft) h ps ->
       let l2 := read_bytes v (file_of "" (ft, FePBF)) data in
       read_fully (ld_reading l2) /\
       (forall t, PbfSpec.only t (fst (ld_reading l2)) = ofilter t (map (PbfSpec.kept (convert_cfg ft)) (objects_of r))) /\
       (PbfSpec.type_sorted (objects_of r) -> objects_of (ld_reading l2) = map (PbfSpec.kept (convert_cfg ft)) (objects_of r)) /\
       mt_generator (ld_meta l2) = "osmium_convert"%string /\
       (bounds_defined (mt_bounds m) = false -> mt_bounds (ld_meta l2) = bounds_new) /\
       (PbfSpec.bounds_ok (mt_bounds m) ->
          PbfSpec.pos_almost (bottom_left (mt_bounds m)) (bottom_left (mt_bounds (ld_meta l2))) /\
          PbfSpec.pos_almost (top_right (mt_bounds m)) (top_right (mt_bounds (ld_meta l2))))).
  Proof.
    intros WK F NG OK FT RF CP. 
    assert (HG : PbfSpec.default_gran (convert_cfg ft)) by (split; reflexivity).
    assert (CP' := CP). rewrite (to_pbf_is_write (ev_codec v) (convert_cfg ft) m (ev_ws v) r F RF NG) in CP'.
    assert (C' : write_pbf (ev_codec v) (convert_cfg ft) m (objects_of r) (ev_ws v) = Ok data) by (destruct (write_pbf _ _ _ _ _); try discriminate; exact CP').
    destruct (PbfMainProofs.roundtrip (ev_codec v) (convert_cfg ft) (wk_codec v WK) HG m (objects_of r) (ev_ws v) data OK FT (wk_writes v WK) C')
      as (h & hb & chunks & ps & EH & _ & HP & HL & LA & R). destruct HP as [HP1 HP2].
    exists h, ps. split; [exact LA|]. intros RD. cbv zeta. unfold read_bytes. cbn [file_of of_enc of_type fst snd ld_reading ld_meta].
    destruct (R RD (ev_rs v) (wk_reads v WK)) as (m' & EP & ER). cbn [convert_cfg cf_type] in ER, EP. rewrite ER. unfold read_fully, objects_of. cbn [pbf_reading pr_groups pr_end pr_meta fst snd].
    split; [reflexivity|]. split; [|split].
    - intros t. rewrite (PbfProofs.chunks_only t (PbfSpec.kept (convert_cfg ft)) chunks (PbfTheorems.kept_is_type (convert_cfg ft))), HP1. reflexivity.
    - intros TS. rewrite (PbfProofs.sorted_chunks (PbfSpec.kept (convert_cfg ft)) chunks (PbfTheorems.kept_is_type (convert_cfg ft))), HP1; [reflexivity|].
      rewrite HP1. exact TS.
    - exact (PbfMainProofs.header_meta (convert_cfg ft) m hb m' EH EP).
  Qed.

  Lemma disk_loads name te wr data w shown : works v -> disk_name name -> snd (arrived v (file_of name te) wr data w) = true ->
    load v (file_of name te) (wd_print shown (fst (arrived v (file_of name te) wr data w))) = Ok (read_bytes v (file_of name te) data).
  Proof.
    intros WK D. pose proof (disk_file name te D) as NM. pose proof (disk_nonempty name D) as NN. pose proof (disk_not_url name D) as NU.
    unfold load, input_bytes, arrived. rewrite NM, NN, NU. destruct te as [t e]. cbn [file_of of_enc snd].
    destruct e; cbn [fst snd wd_print wd_set wd_files]; rewrite ?String.eqb_refl; try reflexivity;
      (destruct wr; [|discriminate]; match goal with |- context[ev_zip v ?e data] => pose proof (wk_zip v WK e data) as Z; destruct (ev_zip v e data) as [z ok] end;
       intros _; cbn [fst wd_print wd_set wd_files] in *; rewrite String.eqb_refl, Z; reflexivity).
  Qed.

  Lemma input_loaded o w n1 te1 n2 te2 : co_args o = [n1; n2] -> given_as n1 (co_from o) te1 -> given_as n2 (co_to o) te2 ->
    disk_name n2 -> n1 <> n2 ->
    let infile := convert_file (nth 0 (co_args o) ""%string) (co_from o) in
    let outfile := convert_file (nth 1 (co_args o) ""%string) (co_to o) in
    infile = file_of n1 te1 /\ outfile = file_of n2 te2 /\
    load v infile (fst (open_output v outfile w)) = load v (file_of n1 te1) w.
  Proof.
    intros A G1 G2 D2 ND. cbv zeta. rewrite A. cbn [nth]. rewrite (convert_file_spec _ _ _ G1), (convert_file_spec _ _ _ G2).
    split; [reflexivity|]. split; [reflexivity|].
    assert (N : of_name (file_of n1 te1) <> n2).
    { cbn [file_of of_name]. destruct (String.eqb n1 "-"); [|exact ND]. destruct D2 as [D2 _]. intros <-. apply D2. cbn. auto. }
    unfold open_output. rewrite (disk_file n2 te2 D2). destruct (of_enc (file_of n2 te2)); destruct (String.eqb n2 ""); destruct (ev_creates v n2);
      cbn [negb andb fst]; first [reflexivity|apply load_other; exact N].
  Qed.

  Theorem convert_to_xml_file o w w' n1 te1 n2 ft e l m : works v ->
    co_args o = [n1; n2] -> given_as n1 (co_from o) te1 -> given_as n2 (co_to o) (ft, e) -> e <> FePBF -> disk_name n2 -> n1 <> n2 ->
    load v (file_of n1 te1) w = Ok l -> ld_init l = Some m ->
    Forall XmlSpec.in_range (objects_of (ld_reading l)) -> Forall XmlSpec.has_xml_texts (objects_of (ld_reading l)) ->
    XmlSpec.bounds_in_range (mt_bounds m) ->
    convert_main v o w = (w', Ok tt) ->
    read_fully (ld_reading l) /\
    exists l2, load v (file_of n2 (ft, e)) w' = Ok l2 /\ read_fully (ld_reading l2) /\
      objects_of (ld_reading l2) = map (XmlSpec.kept ft) (objects_of (ld_reading l)) /\
      ld_meta l2 = mkMeta "osmium_convert" (XmlSpec.kept_bounds (mt_bounds m)).
  Proof.
    intros WK A G1 G2 NE D2 ND LD LM IR TX BR RUN.
    destruct (main_ok o w w' RUN) as (wr & l' & data & shown & X). cbv zeta in X.
    destruct (input_loaded o w n1 te1 n2 (ft, e) A G1 G2 D2 ND) as (I1 & I2 & I3). rewrite I1, I2 in *.
    destruct X as (_ & _ & X1 & X2 & X3 & X4). rewrite I3, LD in X1. injection X1 as <-. rewrite LM in X2.
    destruct (load_file _ _ _ LD) as (d & _ & DL).
    assert (F : file_read (ld_reading l)) by (rewrite DL; apply read_bytes_file).
    assert (NG : fst (ld_reading l) <> []) by (intros Z; rewrite DL in Z; apply init_groups in Z; rewrite <- DL in Z; congruence).
    destruct (write_xml_out (file_of n2 (ft, e)) m (ld_reading l) data shown WK NE F NG X2) as (RF & lx & CX & ->).
    split; [exact RF|]. eexists. split; [rewrite X4; apply disk_loads; assumption|].
    exact (xml_data (file_of n2 (ft, e)) m (ld_reading l) lx WK NE F NG IR TX BR CX).
  Qed.
  Theorem convert_to_pbf_file o w w' n1 te1 n2 ft l m : works v ->
    co_args o = [n1; n2] -> given_as n1 (co_from o) te1 -> given_as n2 (co_to o) (ft, FePBF) -> disk_name n2 -> n1 <> n2 ->
    load v (file_of n1 te1) w = Ok l -> ld_init l = Some m ->
    Forall PbfSpec.object_ok (objects_of (ld_reading l)) -> PbfSpec.few_texts (objects_of (ld_reading l)) ->
    convert_main v o w = (w', Ok tt) ->
    read_fully (ld_reading l) /\
    exists file h ps, wd_files w' n2 = Some file /\ PbfSpec.layout (ev_codec v) (convert_cfg ft) h ps file /\
      (PbfSpec.readable (ev_codec v) (convert_cfg ft) h ps ->
       exists l2, load v (file_of n2 (ft, FePBF)) w' = Ok l2 /\ read_fully (ld_reading l2) /\
         (forall t, PbfSpec.only t (fst (ld_reading l2)) = ofilter t (map (PbfSpec.kept (convert_cfg ft)) (objects_of (ld_reading l)))) /\
         (PbfSpec.type_sorted (objects_of (ld_reading l)) -> objects_of (ld_reading l2) = map (PbfSpec.kept (convert_cfg ft)) (objects_of (ld_reading l))) /\
         mt_generator (ld_meta l2) = "osmium_convert"%string /\
         (bounds_defined (mt_bounds m) = false -> mt_bounds (ld_meta l2) = bounds_new) /\
         (PbfSpec.bounds_ok (mt_bounds m) ->
            PbfSpec.pos_almost (bottom_left (mt_bounds m)) (bottom_left (mt_bounds (ld_meta l2))) /\
            PbfSpec.pos_almost (top_right (mt_bounds m)) (top_right (mt_bounds (ld_meta l2))))).
  Proof.
    intros WK A G1 G2 D2 ND LD LM OK FT RUN.
    destruct (main_ok o w w' RUN) as (wr & l' & data & shown & X). cbv zeta in X.
    destruct (input_loaded o w n1 te1 n2 (ft, FePBF) A G1 G2 D2 ND) as (I1 & I2 & I3). rewrite I1, I2 in *.
    destruct X as (_ & _ & X1 & X2 & X3 & X4). rewrite I3, LD in X1. injection X1 as <-. rewrite LM in X2.
    destruct (load_file _ _ _ LD) as (d & _ & DL).
    assert (F : file_read (ld_reading l)) by (rewrite DL; apply read_bytes_file).
    assert (NG : fst (ld_reading l) <> []) by (intros Z; rewrite DL in Z; apply init_groups in Z; rewrite <- DL in Z; congruence).
    destruct (write_pbf_out (file_of n2 (ft, FePBF)) m (ld_reading l) data shown eq_refl F X2) as (RF & CP).
    split; [exact RF|]. cbn [file_of of_type fst] in CP.
    destruct (pbf_data m (ld_reading l) ft data WK F NG OK FT RF CP) as (h & ps & LA & R).
    exists data, h, ps. split; [|split; [exact LA|]].
    - rewrite X4. cbn [wd_print wd_files]. unfold arrived. cbn [file_of of_enc snd]. rewrite (disk_file n2 (ft, FePBF) D2), (disk_nonempty n2 D2).
      cbn [fst wd_set wd_files]. rewrite String.eqb_refl. reflexivity.
    - intros RD. eexists. split; [rewrite X4; apply disk_loads; assumption|]. exact (R RD).
  Qed.

  (* ---- standard output ---- *)
  Lemma stdout_arrives te wr data shown w : snd te = FePBF \/ snd te = FeXML -> 
    wd_stdout (wd_print shown (fst (arrived v (file_of "" te) wr data w))) = wd_stdout w ++ data ++ shown.
  Proof. destruct te as [t e]. cbn [snd]. intros [->| ->]; cbn; rewrite app_assoc; reflexivity. Qed.
  Lemma stdout_file te w : snd te = FePBF \/ snd te = FeXML -> open_output v (file_of "" te) w = (w, Ok true).
  Proof. destruct te as [t e]. cbn [snd]. intros [->| ->]; reflexivity. Qed.
  Lemma std_file n te : std_name n -> file_of n te = file_of "" te.
  Proof. intros [->| ->]; reflexivity. Qed.

  Theorem convert_to_stdout_xml o w w' n2 te1 ft l m : works v -> ev_tty v = false ->
    nth 1 (co_args o) ""%string = n2 -> std_name n2 ->
    given_as (nth 0 (co_args o) ""%string) (co_from o) te1 -> given_as n2 (co_to o) (ft, FeXML) ->
    load v (file_of (nth 0 (co_args o) ""%string) te1) w = Ok l -> ld_init l = Some m ->
    Forall XmlSpec.in_range (objects_of (ld_reading l)) -> Forall XmlSpec.has_xml_texts (objects_of (ld_reading l)) ->
    XmlSpec.bounds_in_range (mt_bounds m) ->
    convert_main v o w = (w', Ok tt) ->
    read_fully (ld_reading l) /\
    exists data, wd_stdout w' = wd_stdout w ++ data /\
      let l2 := read_bytes v (file_of "" (ft, FeXML)) data in
      read_fully (ld_reading l2) /\
      objects_of (ld_reading l2) = map (XmlSpec.kept ft) (objects_of (ld_reading l)) /\
      ld_meta l2 = mkMeta "osmium_convert" (XmlSpec.kept_bounds (mt_bounds m)).
  Proof.
    intros WK TT A D2 G1 G2 LD LM IR TX BR RUN.
    destruct (main_ok o w w' RUN) as (wr & l' & data & shown & X). cbv zeta in X.
    rewrite A, (convert_file_spec _ _ _ G1), (convert_file_spec _ _ _ G2), (std_file _ _ D2), (stdout_file (ft, FeXML) w) in X by auto.
    destruct X as (_ & _ & X1 & X2 & X3 & X4). cbn [fst] in *. rewrite LD in X1. injection X1 as <-. rewrite LM in X2.
    destruct (load_file _ _ _ LD) as (d & _ & DL).
    assert (F : file_read (ld_reading l)) by (rewrite DL; apply read_bytes_file).
    assert (NG : fst (ld_reading l) <> []) by (intros Z; rewrite DL in Z; apply init_groups in Z; rewrite <- DL in Z; congruence).
    pose proof (nothing_shown _ _ _ _ _ _ F TT X2) as SH. subst shown.
    destruct (write_xml_out (file_of "" (ft, FeXML)) m (ld_reading l) data [] WK ltac:(discriminate) F NG X2) as (RF & lx & CX & ->).
    split; [exact RF|]. exists (bytes_of (ev_contents v lx)). split; [rewrite X4, stdout_arrives by auto; rewrite app_nil_r; reflexivity|].
    exact (xml_data (file_of "" (ft, FeXML)) m (ld_reading l) lx WK ltac:(discriminate) F NG IR TX BR CX).
  Qed.
  Theorem convert_to_stdout_pbf o w w' n2 te1 ft l m : works v -> ev_tty v = false ->
    nth 1 (co_args o) ""%string = n2 -> std_name n2 ->
    given_as (nth 0 (co_args o) ""%string) (co_from o) te1 -> given_as n2 (co_to o) (ft, FePBF) ->
    load v (file_of (nth 0 (co_args o) ""%string) te1) w = Ok l -> ld_init l = Some m ->
    Forall PbfSpec.object_ok (objects_of (ld_reading l)) -> PbfSpec.few_texts (objects_of (ld_reading l)) ->
    convert_main v o w = (w', Ok tt) ->
    read_fully (ld_reading l) /\
    exists data h ps, wd_stdout w' = wd_stdout w ++ data /\ PbfSpec.layout (ev_codec v) (convert_cfg ft) h ps data /\
      (PbfSpec.readable (ev_codec v) (convert_cfg ft) h ps ->
       let l2 := read_bytes v (file_of "" (ft, FePBF)) data in
       read_fully (ld_reading l2) /\
       (forall t, PbfSpec.only t (fst (ld_reading l2)) = ofilter t (map (PbfSpec.kept (convert_cfg ft)) (objects_of (ld_reading l))))).
  Proof.
    intros WK TT A D2 G1 G2 LD LM OK FT RUN.
    destruct (main_ok o w w' RUN) as (wr & l' & data & shown & X). cbv zeta in X.
    rewrite A, (convert_file_spec _ _ _ G1), (convert_file_spec _ _ _ G2), (std_file _ _ D2), (stdout_file (ft, FePBF) w) in X by auto.
    destruct X as (_ & _ & X1 & X2 & X3 & X4). cbn [fst] in *. rewrite LD in X1. injection X1 as <-. rewrite LM in X2.
    destruct (load_file _ _ _ LD) as (d & _ & DL).
    assert (F : file_read (ld_reading l)) by (rewrite DL; apply read_bytes_file).
    assert (NG : fst (ld_reading l) <> []) by (intros Z; rewrite DL in Z; apply init_groups in Z; rewrite <- DL in Z; congruence).
    pose proof (nothing_shown _ _ _ _ _ _ F TT X2) as SH. subst shown.
    destruct (write_pbf_out (file_of "" (ft, FePBF)) m (ld_reading l) data [] eq_refl F X2) as (RF & CP).
    split; [exact RF|]. cbn [file_of of_type fst] in CP.
    destruct (pbf_data m (ld_reading l) ft data WK F NG OK FT RF CP) as (h & ps & LA & R).
    exists data, h, ps. split; [rewrite X4, stdout_arrives by auto; rewrite app_nil_r; reflexivity|]. split; [exact LA|].
    intros RD. destruct (R RD) as (R1 & R2 & _). split; assumption.
  Qed.

  (* ---- a correct file is converted ---- *)
  Lemma opens_disk n te w : disk_name n -> ev_creates v n = true -> open_output v (file_of n te) w = (wd_set n [] w, Ok true).
  Proof.
    intros D C. unfold open_output. rewrite (disk_file n te D), (disk_nonempty n D), C. destruct (of_enc (file_of n te)); reflexivity.
  Qed.
  Lemma main_runs o w n1 te1 n2 te2 l data shown : 
    co_args o = [n1; n2] -> given_as n1 (co_from o) te1 -> given_as n2 (co_to o) te2 -> disk_name n2 -> n1 <> n2 ->
    ev_creates v n2 = true -> (forall e b, snd (ev_zip v e b) = true) ->
    load v (file_of n1 te1) w = Ok l ->
    write_out v (file_of n2 te2) (match ld_init l with Some m => m | None => meta_new end) (ld_reading l) = (data, shown, Ok tt) ->
    exists w', convert_main v o w = (w', Ok tt).
  Proof.
    intros A G1 G2 D2 ND CR ZI LD WO. destruct (input_loaded o w n1 te1 n2 te2 A G1 G2 D2 ND) as (I1 & I2 & I3).
    unfold convert_main. rewrite A in *. cbv zeta. rewrite I1, I2 in *. rewrite (opens_disk n2 te2 w D2 CR) in *. cbn [fst] in I3. rewrite I3, LD, WO.
    unfold arrived. destruct (of_enc (file_of n2 te2)); try (match goal with |- context[ev_zip v ?e data] => specialize (ZI e data); destruct (ev_zip v e data) end; cbn [snd] in ZI; subst); eauto.
  Qed.
  Theorem pbf_conversion_succeeds o w n1 te1 n2 ft l m : works v -> ev_tty v = false ->
    co_args o = [n1; n2] -> given_as n1 (co_from o) te1 -> given_as n2 (co_to o) (ft, FePBF) -> disk_name n2 -> n1 <> n2 ->
    ev_creates v n2 = true -> (forall e b, snd (ev_zip v e b) = true) ->
    load v (file_of n1 te1) w = Ok l -> ld_init l = Some m -> read_fully (ld_reading l) ->
    bounds_defined (mt_bounds m) = false \/ PbfSpec.bounds_ok (mt_bounds m) ->
    Forall PbfSpec.object_ok (objects_of (ld_reading l)) -> Forall PbfSpec.near_ids (objects_of (ld_reading l)) ->
    Forall PbfSpec.known_members (objects_of (ld_reading l)) -> PbfSpec.few_texts (objects_of (ld_reading l)) ->
    (exists w', convert_main v o w = (w', Ok tt)) \/ snd (convert_main v o w) = Throw ERuntime.
  Proof.
    intros WK TT A G1 G2 D2 ND CR ZI LD LM RF B OK NI KM FT.
    destruct (load_file _ _ _ LD) as (d & _ & DL).
    assert (F : file_read (ld_reading l)) by (rewrite DL; apply read_bytes_file).
    assert (NG : fst (ld_reading l) <> []) by (intros Z; rewrite DL in Z; apply init_groups in Z; rewrite <- DL in Z; congruence).
    destruct (input_loaded o w n1 te1 n2 (ft, FePBF) A G1 G2 D2 ND) as (I1 & I2 & I3).
    destruct (convert_pbf_works (ev_codec v) (convert_cfg ft) m (ev_ws v) (ld_reading l) (wk_codec v WK) ltac:(split; reflexivity) B F RF NG OK NI KM FT (wk_writes v WK))
      as [[file C]|[_ C]]; unfold convert_to_pbf in C;
      destruct (input_read (pbf_out (ev_codec v) (convert_cfg ft) m) (ld_reading l) (pwriter_new (mkOfd [] (ev_ws v)))) as [[s h] b] eqn:I;
      destruct (both_same v (pbf_out (ev_codec v) (convert_cfg ft) m) ltac:(split; reflexivity) (pbf_never (ev_codec v) (convert_cfg ft) m) (ld_reading l) _ (progress_new 1000 (ev_tty v)) s h b F RF TT I) as (p' & I' & _).
    - left. assert (h = None) by (destruct h as [[]|]; [discriminate..|reflexivity]). subst h.
      apply (main_runs o w n1 te1 n2 (ft, FePBF) l (fd_out (w_fd s)) (bytes_of (p_out p')) A G1 G2 D2 ND CR ZI LD).
      rewrite LM. unfold write_out. cbn [file_of of_enc of_type fst snd]. rewrite I'. reflexivity.
    - right. destruct h as [[e|]|]; [|discriminate..]. injection C as ->.
      unfold convert_main. rewrite A in *. cbv zeta. rewrite I1, I2 in *. rewrite (opens_disk n2 (ft, FePBF) w D2 CR) in *. cbn [fst] in I3. rewrite I3, LD, LM.
      unfold write_out. cbn [file_of of_enc of_type fst snd]. rewrite I'. cbn [fst snd end_of].
      match goal with |- context[arrived v ?f ?wr ?data ?w1] => destruct (arrived v f wr data w1) end. reflexivity.
  Qed.
End Env.
