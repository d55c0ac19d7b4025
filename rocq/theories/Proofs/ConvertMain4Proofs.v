(** osmium_convert: files of ordinary objects, and input from standard input. *)
From Verif Require Import Base.Prelude Model.Osm Model.OsmFile Model.Handler Model.Pbf Model.Xml Model.Progress Model.Convert Model.ConvertMain
  Spec.HandlerSpec Spec.OsmFileSpec Spec.ConvertSpec Spec.ConvertMainSpec Spec.PbfSizeSpec
  Proofs.HandlerProofs Proofs.ConvertNoStop Proofs.ConvertProofs Proofs.Convert2Proofs Proofs.OsmFileProofs Proofs.ConvertMainProofs Proofs.ConvertMain2Proofs.
From Verif Require Spec.PbfSpec.
From Verif Require Proofs.PbfSizeProofs.
Local Open Scope Z_scope.

Theorem ordinary_pbf K c m sched r : PbfSpec.codec_ok K -> wire_format K -> PbfSpec.default_gran c ->
  bounds_defined (mt_bounds m) = false \/ PbfSpec.bounds_ok (mt_bounds m) -> slen (cf_generator c) <= 1000000 ->
  file_read r -> read_fully r -> fst r <> [] ->
  Forall PbfSpec.object_ok (objects_of r) -> Forall PbfSpec.near_ids (objects_of r) -> Forall PbfSpec.known_members (objects_of r) ->
  PbfSpec.few_texts (objects_of r) -> moderate (objects_of r) -> PbfSpec.writes_complete sched ->
  exists file, convert_to_pbf K c m sched r = Ok file /\ forall s, PbfSpec.reads_ok s ->
    let r2 := pbf_reading (read_pbf K (cf_type c) (mkIfd file s)) in
    read_fully r2 /\ (forall t, PbfSpec.only t (fst r2) = ofilter t (map (PbfSpec.kept c) (objects_of r))) /\
    (PbfSpec.type_sorted (objects_of r) -> objects_of r2 = map (PbfSpec.kept c) (objects_of r)).
Proof.
  intros HK WF HG B GL F RF NG OK NI KM FT MO WS.
  destruct (PbfSizeProofs.read_back K c HK HG WF m (objects_of r) sched B GL OK NI KM FT MO WS) as (file & EW & RB).
  exists file. split; [rewrite (to_pbf_is_write K c m sched r F RF NG), EW; reflexivity|].
  intros s RS. destruct (RB s RS) as (R1 & R2 & R3 & _). cbv zeta. split; [exact R1|]. split; assumption.
Qed.

Section Env.
  Context {L E : Type}.
  Variable v : environment L E.

  Theorem ordinary_converted o w n1 te1 n2 ft l m : works v -> wire_format (ev_codec v) -> ev_tty v = false ->
    co_args o = [n1; n2] -> given_as n1 (co_from o) te1 -> given_as n2 (co_to o) (ft, FePBF) -> disk_name n2 -> n1 <> n2 ->
    ev_creates v n2 = true ->
    load v (file_of n1 te1) w = Ok l -> ld_init l = Some m -> read_fully (ld_reading l) ->
    bounds_defined (mt_bounds m) = false \/ PbfSpec.bounds_ok (mt_bounds m) ->
    Forall PbfSpec.object_ok (objects_of (ld_reading l)) -> Forall PbfSpec.near_ids (objects_of (ld_reading l)) ->
    Forall PbfSpec.known_members (objects_of (ld_reading l)) -> PbfSpec.few_texts (objects_of (ld_reading l)) -> moderate (objects_of (ld_reading l)) ->
    exists w' l2, convert_main v o w = (w', Ok tt) /\ load v (file_of n2 (ft, FePBF)) w' = Ok l2 /\ read_fully (ld_reading l2) /\
      (forall t, PbfSpec.only t (fst (ld_reading l2)) = ofilter t (map (PbfSpec.kept (pbf_defaults ft)) (objects_of (ld_reading l)))) /\
      (PbfSpec.type_sorted (objects_of (ld_reading l)) -> objects_of (ld_reading l2) = map (PbfSpec.kept (pbf_defaults ft)) (objects_of (ld_reading l))) /\
      mt_generator (ld_meta l2) = "osmium_convert"%string /\
      (bounds_defined (mt_bounds m) = false -> mt_bounds (ld_meta l2) = bounds_new) /\
      (PbfSpec.bounds_ok (mt_bounds m) ->
         PbfSpec.pos_almost (bottom_left (mt_bounds m)) (bottom_left (mt_bounds (ld_meta l2))) /\
         PbfSpec.pos_almost (top_right (mt_bounds m)) (top_right (mt_bounds (ld_meta l2)))).
  Proof.
    intros WK WF TT A G1 G2 D2 ND CR LD LM RF B OK NI KM FT MO.
    destruct (load_file v _ _ _ LD) as (d & _ & DL).
    assert (F : file_read (ld_reading l)) by (rewrite DL; apply read_bytes_file).
    assert (NG : fst (ld_reading l) <> []) by (intros Z; rewrite DL in Z; apply init_groups in Z; rewrite <- DL in Z; congruence).
    destruct (input_loaded v o w n1 te1 n2 (ft, FePBF) A G1 G2 D2 ND) as (I1 & I2 & I3).
    assert (HG : PbfSpec.default_gran (pbf_defaults ft)) by (split; reflexivity).
    destruct (PbfSizeProofs.read_back (ev_codec v) (pbf_defaults ft) (wk_codec v WK) HG WF m (objects_of (ld_reading l)) (ev_ws v) B
      ltac:(vm_compute; discriminate) OK NI KM FT MO (wk_writes v WK)) as (file & EW & RB).
    specialize (RB (ev_rs v) (wk_reads v WK)). cbv zeta in RB.
    assert (C : convert_to_pbf (ev_codec v) (pbf_defaults ft) m (ev_ws v) (ld_reading l) = Ok file).
    { rewrite (to_pbf_is_write (ev_codec v) (pbf_defaults ft) m (ev_ws v) (ld_reading l) F RF NG), EW. reflexivity. }
    assert (CI := C). unfold convert_to_pbf in C.
    destruct (input_read (pbf_out (ev_codec v) (convert_cfg ft) m) (ld_reading l) (pwriter_new (mkOfd [] (ev_ws v)))) as [[s h] b] eqn:I.
    change (pbf_defaults ft) with (convert_cfg ft) in C. rewrite I in C.
    destruct (both_same v (pbf_out (ev_codec v) (convert_cfg ft) m) ltac:(split; reflexivity) (pbf_never (ev_codec v) (convert_cfg ft) m) (ld_reading l) _ (progress_new 1000 (ev_tty v)) s h b F RF TT I) as (p' & I' & _).
    assert (h = None) by (destruct h as [[]|]; [discriminate..|reflexivity]). subst h.
    assert (WO : exists shown, write_out v (file_of n2 (ft, FePBF)) m (ld_reading l) = (file, shown, Ok tt)).
    { unfold write_out. cbn [file_of of_enc of_type fst snd]. rewrite I'. cbn [fst snd end_of]. injection C as ->. eexists. reflexivity. }
    destruct WO as (shown & WO).
    exists (wd_print shown (fst (arrived v (file_of n2 (ft, FePBF)) true file (wd_set n2 [] w)))), (read_bytes v (file_of n2 (ft, FePBF)) file).
    split; [|split; [apply disk_loads; [exact WK|exact D2|reflexivity]|exact RB]].
    unfold convert_main. rewrite A in *. cbv zeta. rewrite I1, I2 in *. rewrite (opens_disk v n2 (ft, FePBF) w D2 CR) in *. cbn [fst] in I3. rewrite I3, LD, LM, WO.
    reflexivity.
  Qed.

  (* ---- input from standard input ---- *)
  Lemma out_name n te n' : n <> n' -> disk_name n' -> of_name (file_of n te) <> n'.
  Proof. intros H [D _]. cbn [file_of of_name]. destruct (String.eqb n "-"); [|exact H]. intros <-. apply D. cbn. auto. Qed.
  Lemma opened_other f w n : n <> of_name f -> wd_files (fst (open_output v f w)) n = wd_files w n /\ wd_stdin (fst (open_output v f w)) = wd_stdin w.
  Proof.
    intros H. apply String.eqb_neq in H. unfold open_output. destruct (of_enc f); destruct (String.eqb (of_name f) ""); destruct (ev_creates v (of_name f));
      cbn [negb andb fst wd_set wd_files wd_stdin]; rewrite ?H; split; reflexivity.
  Qed.
  Lemma load_same te n n' w : std_name n -> disk_name n' -> snd te = FePBF \/ snd te = FeXML -> wd_files w n' = Some (wd_stdin w) ->
    load v (file_of n te) w = load v (file_of n' te) w.
  Proof.
    intros S D ET FS. rewrite (std_file n te S). unfold load, input_bytes. rewrite (disk_file n' te D), (disk_nonempty n' D), (disk_not_url n' D).
    destruct te as [t e]. cbn [snd] in ET. destruct ET as [->| ->]; cbn [file_of of_enc of_name fst snd String.eqb is_url]; rewrite FS; reflexivity.
  Qed.
  Theorem stdin_same o o' w n n' n2 te te2 : co_args o = [n; n2] -> co_args o' = [n'; n2] -> co_to o = co_to o' ->
    std_name n -> disk_name n' -> n2 <> n' -> given_as n (co_from o) te -> given_as n' (co_from o') te -> given_as n2 (co_to o) te2 ->
    snd te = FePBF \/ snd te = FeXML -> wd_files w n' = Some (wd_stdin w) ->
    convert_main v o w = convert_main v o' w.
  Proof.
    intros A A' T S D ND G G' G2 ET FS. unfold convert_main. rewrite A, A', <- T. cbv zeta. cbn [nth].
    rewrite (convert_file_spec _ _ _ G), (convert_file_spec _ _ _ G'), (convert_file_spec _ _ _ G2).
    assert (N : n' <> of_name (file_of n2 te2)) by (intros Q; symmetry in Q; revert Q; apply out_name; assumption).
    destruct (opened_other (file_of n2 te2) w n' N) as [O1 O2].
    destruct (open_output v (file_of n2 te2) w) as [w1 wr]. cbn [fst] in O1, O2.
    rewrite (load_same te n n' w1 S D ET) by (rewrite O1, O2; exact FS). reflexivity.
  Qed.
End Env.
