(** osmium_convert: what it knows of the input when it writes the header, and the findings. *)
From Verif Require Import Base.Prelude Model.Osm Model.OsmFile Model.Handler Model.Pbf Model.Xml Model.Progress Model.Convert Model.ConvertMain
  Spec.HandlerSpec Spec.OsmFileSpec Spec.ConvertSpec Spec.XmlSpec Spec.ConvertMainSpec
  Proofs.HandlerProofs Proofs.ConvertNoStop Proofs.ConvertProofs Proofs.Convert2Proofs Proofs.OsmFileProofs Proofs.XmlReadProofs
  Proofs.ConvertMainProofs Proofs.ConvertMain2Proofs.
From Verif Require Spec.PbfSpec Spec.XmlText.
From Verif Require Proofs.ProtobufProofs Proofs.XmlTextProofs Proofs.PbfFrameProofs Proofs.XmlTheorems Proofs.XmlFileProofs.

(* ---- XML ---- *)
Lemma events_meta_seen es st m : seen st = Some m -> events_meta es st = Some m.
Proof. intros H. destruct es; cbn [events_meta]; rewrite H; reflexivity. Qed.
Lemma events_meta_app a : forall b st, events_meta (a ++ b) st =
  match events_meta a st with
  | Some m => Some m
  | None => match x_events a st with (st', Ok _) => events_meta b st' | _ => None end
  end.
Proof.
  induction a as [|e r IH]; intros b st.
  - cbn [app events_meta x_events x_ok]. destruct (seen st) eqn:S; [apply events_meta_seen; exact S|reflexivity].
  - cbn [app events_meta x_events]. destruct (seen st); [reflexivity|]. destruct (x_event e st) as [st' [u|x| |]]; [apply IH|..]; destruct (seen st'); reflexivity.
Qed.
Lemma events_meta_none a b st st' : x_events a st = x_ok st' -> x_groups st' = [] -> events_meta (a ++ b) st = events_meta b st'.
Proof.
  intros X G. rewrite events_meta_app. destruct (events_meta a st) as [m|] eqn:EM; [|rewrite X; reflexivity].
  exfalso. assert (Z : x_groups (fst (x_events a st)) = []) by (rewrite X; exact G). apply events_meta_groups in Z. congruence.
Qed.
Lemma object_seen n a rest st : x_ctx st = CtxTop -> is_object_name n = true -> x_groups st = [] ->
  events_meta (EvStart n a :: rest) st = Some (x_meta st).
Proof.
  intros C N G. assert (S : seen st = None) by (apply seen_none; exact G). cbn [events_meta]. rewrite S. cbn [x_event]. unfold start_element. rewrite C.
  unfold start_top. unfold is_object_name in N.
  destruct (String.eqb n "node"); [|destruct (String.eqb n "way"); [|destruct (String.eqb n "relation"); [|discriminate]]];
    (match goal with |- context[init_object ?x ?y ?z] => destruct (init_object x y z) as [ap|e| |] end; cbn [x_try x_ok]; [apply events_meta_seen|..];
     unfold seen; cbn [x_groups x_meta x_enter x_set_cur x_node_there x_emit]; rewrite G; reflexivity).
Qed.
Lemma early_elem n a kids : early (Elem n a kids) =
  if is_object_name n then ([], true)
  else let (l, s) := early_all kids in ((if String.eqb n "bounds" then [a] else []) ++ l, s).
Proof. reflexivity. Qed.

(* no object *)
Lemma early_none e : forall del, snd (early e) = false -> objects_in del e = [] /\ fst (early e) = bounds_in e.
Proof.
  induction e as [n a kids IH] using xml_ind'. intros del. rewrite early_elem. cbn [objects_in bounds_in]. destruct (is_object_name n); [discriminate|].
  assert (K : forall d, snd (early_all kids) = false -> flat_map (objects_in d) kids = [] /\ fst (early_all kids) = flat_map bounds_in kids).
  { clear -IH. induction IH as [|k r H _ IH2]; intros d; [split; reflexivity|]. cbn [early_all flat_map].
    destruct (early k) as [l [|]] eqn:E; [discriminate|]. destruct (early_all r) as [l2 s2]. cbn [fst snd] in *. intros S.
    destruct (H d eq_refl) as [-> <-]. destruct (IH2 d S) as [-> <-]. split; reflexivity. }
  destruct (early_all kids) as [l s]. cbn [fst snd] in *. intros S. destruct (K (del || String.eqb n "delete")%bool S) as [-> <-]. split; reflexivity.
Qed.
(* up to the first object *)
Definition found (del : bool) (e : xml) : Prop := forall st rest, x_ctx st = CtxTop -> x_delete st = del -> readable del e -> x_groups st = [] -> snd (early e) = true ->
  exists cs, events_meta (events_of e ++ rest) st = Some (extended (x_meta st) cs) /\ Forall2 corners_described (fst (early e)) cs.
Lemma found_all del kids : Forall (found del) kids -> forall st rest, x_ctx st = CtxTop -> x_delete st = del -> Forall (readable del) kids -> x_groups st = [] ->
  snd (early_all kids) = true ->
  exists cs, events_meta (flat_map events_of kids ++ rest) st = Some (extended (x_meta st) cs) /\ Forall2 corners_described (fst (early_all kids)) cs.
Proof.
  induction kids as [|k r IH]; intros F st rest C D R G S; [discriminate|].
  inversion F as [|x y F1 F2]; subst. inversion R as [|x y R1 R2]; subst. cbn [early_all flat_map] in *. rewrite <- app_assoc.
  destruct (early k) as [l [|]] eqn:EK.
  - destruct (F1 st (flat_map events_of r ++ rest) C eq_refl R1 G ltac:(rewrite EK; reflexivity)) as (cs & E & B). rewrite EK in B. exists cs. split; assumption.
  - destruct (early_none k (x_delete st) ltac:(rewrite EK; reflexivity)) as [ON EB]. rewrite EK in EB. cbn [fst] in EB.
    destruct (elem_reads k (x_delete st) st C eq_refl R1) as (st1 & os & cs1 & E1 & C1 & D1 & G1 & O1 & M1 & B1).
    rewrite ON in O1. inversion O1; subst. rewrite G in G1. cbn [app announced flat_map] in G1.
    destruct (early_all r) as [l2 s2]. cbn [fst snd] in *. destruct (IH F2 st1 rest C1 D1 R2 G1 S) as (cs2 & E2 & B2).
    exists (cs1 ++ cs2). rewrite (events_meta_none _ _ _ _ E1 G1), E2, M1, extended_app. split; [reflexivity|]. apply Forall2_app; assumption.
Qed.
Lemma elem_found e : forall del, found del e.
Proof.
  induction e as [n a kids IH] using xml_ind'. intros del st rest C D R G S. rewrite early_elem in *. cbn [events_of]. rewrite <- app_comm_cons.
  destruct (is_object_name n) eqn:N.
  - exists []. rewrite (object_seen n a _ st C N G), extended_nil. split; [reflexivity|constructor].
  - destruct (readable_all del n a kids R N) as (RB & R1 & R2 & R3 & R4).
    set (d' := (del || String.eqb n "delete")%bool) in *.
    assert (S1 : exists st1 cs1, start_element n a st = x_ok st1 /\ x_ctx st1 = CtxTop /\ x_delete st1 = d' /\ x_groups st1 = x_groups st /\
      x_meta st1 = extended (x_meta st) cs1 /\ Forall2 corners_described (if String.eqb n "bounds" then [a] else []) cs1).
    { unfold start_element. rewrite C. unfold start_top. unfold is_object_name in N.
      destruct (String.eqb n "node"); [discriminate|]. destruct (String.eqb n "way"); [discriminate|]. destruct (String.eqb n "relation"); [discriminate|].
      destruct (String.eqb_spec n "bounds") as [EB|NB].
      - destruct (bounds_corners a (RB EB)) as (c & -> & Hc). cbn [x_try]. eexists. exists [c]. split; [reflexivity|].
        cbn [x_ctx x_delete x_groups x_meta x_set_meta]. split; [exact C|]. split; [|split; [reflexivity|split; [reflexivity|]]].
        + unfold d'. rewrite EB. cbn. rewrite orb_false_r. exact D.
        + repeat constructor; apply Hc.
      - unfold d'. destruct (String.eqb n "delete") eqn:ED; eexists; exists []; (split; [reflexivity|]); rewrite extended_nil.
        + cbn [x_ctx x_delete x_groups x_meta x_set_delete]. rewrite orb_true_r. repeat split; try assumption; constructor.
        + rewrite orb_false_r. repeat split; try assumption; constructor. }
    destruct S1 as (st1 & cs1 & E1 & C1 & D1 & G1 & M1 & B1). rewrite G in G1.
    assert (F : Forall (found d') kids) by (eapply Forall_impl; [|exact IH]; intros x Hx; apply Hx).
    destruct (early_all kids) as [l s] eqn:EA. cbn [fst snd] in *. 
    destruct (found_all d' kids F st1 ([EvEnd n] ++ rest) C1 D1 R4 G1 ltac:(rewrite EA; exact S)) as (cs2 & E2 & B2). rewrite EA in B2. cbn [fst] in B2.
    exists (cs1 ++ cs2). split; [|apply Forall2_app; assumption].
    change (EvStart n a :: (flat_map events_of kids ++ [EvEnd n]) ++ rest) with ([EvStart n a] ++ ((flat_map events_of kids ++ [EvEnd n]) ++ rest)).
    rewrite (events_meta_none [EvStart n a] _ st st1) by (first [exact G1|cbn [x_events x_event]; rewrite E1; reflexivity]).
    rewrite <- app_assoc, E2, M1, extended_app. reflexivity.
Qed.
Lemma document_meta root a kids : readable_document root a kids -> snd (early_all kids) = true ->
  exists m, events_meta (events_of (Elem root a kids)) x_new = Some m /\ meta_of root a (fst (early_all kids)) m.
Proof.
  intros [RR RK] S. cbn [events_of].
  assert (S1 : exists st1, start_element root a x_new = x_ok st1 /\ x_ctx st1 = CtxTop /\ x_delete st1 = false /\ x_groups st1 = [] /\
    x_meta st1 = Pbf.mkMeta (if is_root_name root then attr_or "" "generator" a else ""%string) bounds_new).
  { unfold start_element. change (x_ctx x_new) with CtxRoot. destruct (is_root_name root) eqn:RN.
    - unfold is_root_name in RN. apply orb_true_iff in RN. rewrite !String.eqb_eq in RN. destruct (RR RN) as [ND RV].
      rewrite (root_attrs_spec a (x_meta x_new) ND RV). cbn [x_try]. eexists. split; [reflexivity|]. repeat split.
    - eexists. split; [reflexivity|]. repeat split. }
  destruct S1 as (st1 & E1 & C1 & D1 & G1 & M1).
  change (EvStart root a :: flat_map events_of kids ++ [EvEnd root]) with ([EvStart root a] ++ (flat_map events_of kids ++ [EvEnd root])).
  rewrite (events_meta_none [EvStart root a] _ x_new st1) by (first [exact G1|cbn [x_events x_event]; rewrite E1; reflexivity]).
  destruct (found_all false kids) with (st := st1) (rest := [EvEnd root]) as (cs & E2 & B2); try assumption.
  { apply Forall_forall. intros x _. apply elem_found. }
  eexists. split; [exact E2|]. rewrite M1. split; [reflexivity|]. exists cs. split; [exact B2|reflexivity].
Qed.

Section Env.
  Context {L E : Type}.
  Variable v : environment L E.
  Lemma loop_meta_feeds bufs : forall e st es ok, ~ In ""%string bufs -> feeds (ev_expat v) e bufs = (es, ok) ->
    loop_meta v (map Some bufs) e st = events_meta es st.
  Proof.
    induction bufs as [|b bufs IH]; intros e st es ok NI F; cbn [feeds map loop_meta] in *.
    - destruct (ev_expat v e ""%string true) as [[e' evs] o]. injection F as <- <-. reflexivity.
    - destruct b as [|c b]; [exfalso; apply NI; left; reflexivity|]. destruct (ev_expat v e (String c b) false) as [[e' evs] o]. destruct o.
      + destruct (feeds (ev_expat v) e' bufs) as [evs' ok'] eqn:F'. injection F as <- <-. rewrite events_meta_app.
        destruct (events_meta evs st); [reflexivity|]. destruct (x_events evs st) as [st' [u|x| |]]; try reflexivity.
        eapply IH; [|exact F']. intros I. apply NI. right. exact I.
      + injection F as <- <-. destruct (events_meta evs st) as [m|] eqn:EM; [reflexivity|]. destruct (x_events evs st) as [st' [u|x| |]]; reflexivity.
  Qed.
  Theorem early_bounds f d root a kids : works v -> of_enc f <> FePBF -> readable_document root a kids ->
    parses (ev_expat v) (ev_e0 v) (text_of d) (events_of (Elem root a kids)) -> snd (early_all kids) = true ->
    exists m, ld_init (read_bytes v f d) = Some m /\ meta_of root a (fst (early_all kids)) m.
  Proof.
    intros WK NE RD P S. destruct (xml_enc v f d NE) as (bufs & EB & ->). cbn [ld_init].
    destruct (wk_cut v WK (text_of d)) as (bs & CB & JB & NB). rewrite CB in EB. subst bufs.
    rewrite (loop_meta_feeds bs _ _ _ true NB (P bs JB NB)). apply document_meta; assumption.
  Qed.
  (* ---- PBF ---- *)
  Lemma no_header_meta ty fin bs : ~ In "OSMHeader"%string (map fst bs) -> forall m, pr_meta (parse_blobs (ev_codec v) ty bs fin m) = m.
  Proof.
    induction bs as [|[t d] r IH]; intros NH m; cbn [parse_blobs map fst] in *; [reflexivity|].
    assert (NH' : ~ In "OSMHeader"%string (map fst r)) by (intros I; apply NH; right; exact I).
    destruct (String.eqb t "OSMData").
    - destruct (par_pb (ev_codec v) d) as [b|]; [|reflexivity]. destruct (parse_groups b (pb_groups b)) as [gs [[]|x| |]]; try reflexivity. apply IH. exact NH'.
    - destruct (String.eqb_spec t "OSMHeader") as [->|N]; [exfalso; apply NH; left; reflexivity|]. apply IH. exact NH'.
  Qed.
  Lemma no_header_init ty bs : ~ In "OSMHeader"%string (map fst bs) -> forall m m', blobs_meta v ty bs m = Some m' -> m' = m.
  Proof.
    induction bs as [|[t d] r IH]; intros NH m m'; cbn [blobs_meta map fst] in *; [discriminate|].
    assert (NH' : ~ In "OSMHeader"%string (map fst r)) by (intros I; apply NH; right; exact I).
    destruct (String.eqb t "OSMData").
    - destruct (par_pb (ev_codec v) d) as [b|]; [|discriminate]. destruct (parse_groups b (pb_groups b)) as [[|g gs] [[]|x| |]]; try discriminate; try congruence.
      apply IH. exact NH'.
    - destruct (String.eqb_spec t "OSMHeader") as [->|N]; [exfalso; apply NH; left; reflexivity|]. apply IH. exact NH'.
  Qed.
  Theorem header_first f d bs fs tail m : works v -> of_enc f = FePBF ->
    Forall2 (PbfSpec.blob_bytes (ev_codec v)) (("OSMHeader"%string, d) :: bs) fs -> (List.length tail < 4)%nat -> ~ In "OSMHeader"%string (map fst bs) ->
    ld_init (read_bytes v f (List.concat fs ++ tail)) = Some m -> m = ld_meta (read_bytes v f (List.concat fs ++ tail)).
  Proof.
    intros WK EE HF HT NH. unfold read_bytes. rewrite EE. cbn [ld_init ld_meta]. unfold read_pbf.
    rewrite (PbfFrameProofs.read_blobs_complete (ev_codec v) _ fs tail (ev_rs v) HF (wk_reads v WK) HT). cbn [fst blobs_meta parse_blobs].
    change (String.eqb "OSMHeader" "OSMData") with false. change (String.eqb "OSMHeader" "OSMHeader") with true. cbv iota.
    destruct (par_hb (ev_codec v) d) as [h|]; [|discriminate]. destruct (parse_header (of_type f) h meta_new) as [m'|x| |]; try discriminate.
    intros H. rewrite (no_header_meta _ _ bs NH). exact (no_header_init _ bs NH _ _ H).
  Qed.

  (* ---- a conversion that ends normally has read all of its input ---- *)
  Theorem complete o w w' n1 te1 n2 te2 : co_args o = [n1; n2] -> given_as n1 (co_from o) te1 -> given_as n2 (co_to o) te2 -> disk_name n2 -> n1 <> n2 ->
    convert_main v o w = (w', Ok tt) -> exists l, load v (file_of n1 te1) w = Ok l /\ read_fully (ld_reading l).
  Proof.
    intros A G1 G2 D2 ND RUN. destruct (main_ok v o w w' RUN) as (wr & l & data & shown & X). cbv zeta in X.
    destruct (input_loaded v o w n1 te1 n2 te2 A G1 G2 D2 ND) as (I1 & I2 & I3). rewrite I1, I2 in *.
    destruct X as (_ & _ & X1 & X2 & _). rewrite I3 in X1. exists l. split; [exact X1|].
    destruct (load_file v _ _ _ X1) as (d & _ & DL). assert (F : file_read (ld_reading l)) by (rewrite DL; apply read_bytes_file).
    unfold write_out in X2. set (m := match ld_init l with Some m => m | None => meta_new end) in *.
    assert (D : forall h, end_of h = Ok tt -> h = None) by (intros [[]|]; [discriminate..|reflexivity]).
    destruct (of_enc (file_of n2 te2));
      (destruct (input_read (and_progress v _) _ _) as [[s h] b] eqn:I in X2; apply pair_equal_spec in X2; destruct X2 as [_ HE]; apply D in HE; subst h;
       eapply both_run in I; [exact (proj1 I)|split; reflexivity|first [apply pbf_never|apply xml_never]|exact F]).
  Qed.
End Env.

(* ---- a correct file is converted to XML ---- *)
Theorem xml_conversion_succeeds E (v : environment XmlText.tw E) o w n1 te1 n2 ft e l m :
  ev_lib v = XmlText.tw_call -> ev_free v = XmlText.tw_free -> ev_l0 v = XmlText.tw_new -> ev_tty v = false ->
  co_args o = [n1; n2] -> given_as n1 (co_from o) te1 -> given_as n2 (co_to o) (ft, e) -> e <> FePBF -> disk_name n2 -> n1 <> n2 ->
  ev_creates v n2 = true -> (forall e b, snd (ev_zip v e b) = true) ->
  load v (file_of n1 te1) w = Ok l -> ld_init l = Some m -> read_fully (ld_reading l) ->
  Forall in_range (objects_of (ld_reading l)) -> Forall has_xml_texts (objects_of (ld_reading l)) -> bounds_in_range (mt_bounds m) ->
  exists w', convert_main v o w = (w', Ok tt).
Proof.
  intros EL EF E0 TT A G1 G2 NE D2 ND CR ZI LD LM RF IR TX BR.
  destruct (load_file v _ _ _ LD) as (d & _ & DL).
  assert (F : file_read (ld_reading l)) by (rewrite DL; apply read_bytes_file).
  assert (NG : fst (ld_reading l) <> []) by (intros Z; rewrite DL in Z; apply init_groups in Z; rewrite <- DL in Z; congruence).
  destruct (convert_xml_works ft "osmium_convert" m (ld_reading l) F RF NG IR TX BR) as (x & C).
  { apply XmlFileProofs.plain_text. XmlFileProofs.plain_lit. }
  unfold convert_to_xml in C. rewrite <- EL, <- EF, <- E0 in C.
  destruct (input_read (xml_out (ev_lib v) (ev_free v) ft "osmium_convert" m) (ld_reading l) (mkXO (ev_l0 v) None false)) as [[s h] b] eqn:I.
  destruct (both_same v (xml_out (ev_lib v) (ev_free v) ft "osmium_convert" m) ltac:(split; reflexivity) (xml_never (ev_lib v) (ev_free v) ft "osmium_convert" m)
    (ld_reading l) _ (progress_new 1000 (ev_tty v)) s h b F RF TT I) as (p' & I' & _).
  assert (h = None) by (destruct h as [[]|]; [discriminate..|reflexivity]). subst h.
  apply (main_runs v o w n1 te1 n2 (ft, e) l (bytes_of (ev_contents v (xo_lib s))) (bytes_of (p_out p')) A G1 G2 D2 ND CR ZI LD).
  rewrite LM. unfold write_out. cbn [file_of of_enc of_type fst snd]. rewrite I'. destruct e; [congruence|reflexivity..].
Qed.

(* ---- examples ---- *)
Lemma small_works d : works (small_env d).
Proof.
  constructor; cbn [small_env ev_codec ev_lib ev_free ev_contents ev_l0 ev_expat ev_e0 ev_rs ev_cut ev_ws ev_zip ev_unzip].
  - exact ProtobufProofs.protobuf_ok.
  - exact XmlTextProofs.xml_text_libraries.
  - reflexivity.
  - first [constructor; fail|intros []].
  - intros [|c s]; [exists []|exists [String c s]]; (split; [reflexivity|split; [cbn [joined]|]]); [reflexivity|intros []| |intros [H|[]]; discriminate].
    clear. induction s as [|x s IH]; cbn in *; [reflexivity|]. congruence.
  - first [constructor; fail|intros []].
  - reflexivity.
Qed.
