(** Conversions end to end. *)
From Verif Require Import Base.Prelude Model.Osm Model.OsmFile Model.Handler Model.Pbf Model.Xml Model.Convert
  Spec.HandlerSpec Spec.ConvertSpec Proofs.HandlerProofs Proofs.ConvertNoStop Proofs.ConvertProofs.
From Verif Require Spec.PbfSpec Spec.XmlSpec Spec.XmlText.
From Verif Require Proofs.PbfTheorems Proofs.XmlTheorems Proofs.XmlFileProofs.

Lemma announced_objects os : flat_map snd (XmlSpec.announced os) = os.
Proof. induction os as [|o r IH]; [reflexivity|]. unfold XmlSpec.announced in *. cbn [flat_map app snd]. cbn. f_equal. exact IH. Qed.

Lemma convert_xml : forall L E (lib : L -> wcall -> L * bool) free contents l0 (expat : E -> string -> bool -> E * list event * bool) e0,
  XmlSpec.xml_libraries lib free contents l0 expat e0 -> forall ft g m r l,
  file_read r -> fst r <> [] -> Forall XmlSpec.in_range (objects_of r) -> Forall XmlSpec.has_xml_texts (objects_of r) ->
  XmlSpec.bounds_in_range (mt_bounds m) -> XmlSpec.xml_text g ->
  convert_to_xml lib free l0 ft g m r = (l, true, Ok tt) ->
  forall bufs, XmlSpec.joined bufs = contents l -> ~ In ""%string bufs ->
  let r2 := xml_reading (read_xml expat e0 (map Some bufs)) in
  read_fully r2 /\ objects_of r2 = map (XmlSpec.kept ft) (objects_of r) /\
  x_meta (fst (read_xml expat e0 (map Some bufs))) = mkMeta g (XmlSpec.kept_bounds (mt_bounds m)).
Proof.
  intros L E lib free contents l0 expat e0 XL ft g m r l F N R T B G C bufs J I.
  pose proof (to_xml_complete lib free ft g m l0 r l true F C) as RF.
  apply (to_xml_is_write lib free ft g m l0 r l true F RF N) in C.
  destruct (XmlFileProofs.xml_roundtrip lib free contents l0 expat e0 XL ft g (mt_bounds m) (objects_of r) l R T B G C bufs J I) as (st & -> & X1 & X2).
  cbv zeta. split; [reflexivity|]. split; [|exact X2]. unfold objects_of at 1, xml_reading. cbn [fst]. rewrite X1. apply announced_objects.
Qed.
Lemma convert_pbf : forall K c m sched r file, PbfSpec.codec_ok K -> PbfSpec.default_gran c ->
  file_read r -> fst r <> [] -> Forall PbfSpec.object_ok (objects_of r) -> PbfSpec.few_texts (objects_of r) ->
  PbfSpec.writes_complete sched -> convert_to_pbf K c m sched r = Ok file ->
  exists h ps, PbfSpec.layout K c h ps file /\
    (PbfSpec.readable K c h ps -> forall s, PbfSpec.reads_ok s ->
       let r2 := pbf_reading (read_pbf K (cf_type c) (mkIfd file s)) in
       read_fully r2 /\ (forall t, PbfSpec.only t (fst r2) = ofilter t (map (PbfSpec.kept c) (objects_of r))) /\
       (PbfSpec.type_sorted (objects_of r) -> objects_of r2 = map (PbfSpec.kept c) (objects_of r))).
Proof.
  intros K c m sched r file HK HG F N O FT W C. pose proof (to_pbf_complete K c m sched r file F C) as RF.
  rewrite (to_pbf_is_write K c m sched r F RF N) in C.
  assert (C' : write_pbf K c m (objects_of r) sched = Ok file) by (destruct (write_pbf K c m (objects_of r) sched); try discriminate; exact C).
  exact (PbfTheorems.pbf_order K c m (objects_of r) sched file HK HG O FT W C').
Qed.
Lemma convert_xml_works : forall ft g m r, file_read r -> read_fully r -> fst r <> [] ->
  Forall XmlSpec.in_range (objects_of r) -> Forall XmlSpec.has_xml_texts (objects_of r) ->
  XmlSpec.bounds_in_range (mt_bounds m) -> XmlSpec.xml_text g ->
  exists w, convert_to_xml XmlText.tw_call XmlText.tw_free XmlText.tw_new ft g m r = (w, true, Ok tt).
Proof.
  intros ft g m r F RF N R T B G. destruct (XmlTheorems.xml_text_roundtrip ft g (mt_bounds m) (objects_of r) R T B G) as (w & C & _).
  exists w. apply (to_xml_is_write XmlText.tw_call XmlText.tw_free ft g m XmlText.tw_new r w true F RF N). exact C.
Qed.
Lemma convert_pbf_works : forall K c m sched r, PbfSpec.codec_ok K -> PbfSpec.default_gran c ->
  bounds_defined (mt_bounds m) = false \/ PbfSpec.bounds_ok (mt_bounds m) ->
  file_read r -> read_fully r -> fst r <> [] ->
  Forall PbfSpec.object_ok (objects_of r) -> Forall PbfSpec.near_ids (objects_of r) -> Forall PbfSpec.known_members (objects_of r) ->
  PbfSpec.few_texts (objects_of r) -> PbfSpec.writes_complete sched ->
  (exists file, convert_to_pbf K c m sched r = Ok file) \/ (cf_compress c = true /\ convert_to_pbf K c m sched r = Throw ERuntime).
Proof.
  intros K c m sched r HK HG B F RF N O NI KM FT W. rewrite (to_pbf_is_write K c m sched r F RF N).
  destruct (PbfTheorems.pbf_written K c m (objects_of r) sched HK HG B O NI KM FT W) as [[file ->]|[C ->]]; cbn; eauto.
Qed.

(* ---- nothing is lost ---- *)
Lemma plain_xml ft o : plain ft o -> XmlSpec.kept ft o = o.
Proof.
  intros [[E [U V]] P]. 
  assert (A : forall a, a = obj_attrs o -> XmlSpec.kept_attrs ft a = a).
  { intros a ->. unfold XmlSpec.kept_attrs. destruct (obj_attrs o) as [id ver cs ts et uid us vis tags]. cbn in *. subst et.
    f_equal.
    - destruct U as [U|[U _]]; destruct (0 <? uid) eqn:L; lia.
    - destruct (0 <? uid) eqn:L; [reflexivity|]. destruct U as [U|[_ ->]]; [lia|reflexivity].
    - destruct ft; auto. symmetry. auto. }
  destruct o as [[a p]|[a ns]|[a ms]]; cbn in *; rewrite A by reflexivity.
  - destruct P as [->| ->]; [reflexivity|]. destruct (pos_defined undef_pos); reflexivity.
  - f_equal. f_equal. induction P as [|[r q] l H P IH]; cbn in *; [reflexivity|]. now subst q; rewrite IH.
  - f_equal. f_equal. induction P as [|[t r q] l H P IH]; cbn in *; [reflexivity|]. rewrite IH. f_equal. destruct H as [->|[->| ->]]; reflexivity.
Qed.
Lemma plain_pbf c o : cf_meta c = true -> plain (cf_type c) o -> PbfSpec.kept c o = o.
Proof.
  intros M [[E [U V]] P].
  assert (A : forall a, a = obj_attrs o -> PbfSpec.kept_attrs c (fun x => x) a = a).
  { intros a ->. unfold PbfSpec.kept_attrs. rewrite M. destruct (obj_attrs o) as [id ver cs ts et uid us vis tags]. cbn in *. subst et.
    f_equal. destruct (cf_type c); cbn; auto. symmetry. auto. }
  destruct o as [[a p]|[a ns]|[a ms]]; unfold PbfSpec.kept, PbfSpec.kept_with; cbn in *; rewrite A by reflexivity.
  - destruct p; reflexivity.
  - f_equal. f_equal. induction P as [|[r q] l H P IH]; cbn in *; [reflexivity|]. now subst q; rewrite IH.
  - reflexivity.
Qed.
Lemma map_same A (f : A -> A) l : Forall (fun x => f x = x) l -> map f l = l.
Proof. induction 1; cbn; congruence. Qed.
Lemma convert_there_and_back : forall L E (lib : L -> wcall -> L * bool) free contents l0 (expat : E -> string -> bool -> E * list event * bool) e0 K,
  XmlSpec.xml_libraries lib free contents l0 expat e0 -> PbfSpec.codec_ok K -> forall c g m m2 r l sched file bufs,
  PbfSpec.default_gran c -> cf_meta c = true -> file_read r -> objects_of r <> [] -> Forall (plain (cf_type c)) (objects_of r) ->
  Forall XmlSpec.in_range (objects_of r) -> Forall XmlSpec.has_xml_texts (objects_of r) ->
  XmlSpec.bounds_in_range (mt_bounds m) -> XmlSpec.xml_text g ->
  Forall PbfSpec.object_ok (objects_of r) -> PbfSpec.few_texts (objects_of r) -> PbfSpec.type_sorted (objects_of r) -> PbfSpec.writes_complete sched ->
  convert_to_xml lib free l0 (cf_type c) g m r = (l, true, Ok tt) ->
  XmlSpec.joined bufs = contents l -> ~ In ""%string bufs ->
  convert_to_pbf K c m2 sched (xml_reading (read_xml expat e0 (map Some bufs))) = Ok file ->
  exists h ps, PbfSpec.layout K c h ps file /\
    (PbfSpec.readable K c h ps -> forall s, PbfSpec.reads_ok s ->
       let r2 := pbf_reading (read_pbf K (cf_type c) (mkIfd file s)) in read_fully r2 /\ objects_of r2 = objects_of r).
Proof.
  intros L E lib free contents l0 expat e0 K XL HK c g m m2 r l sched file bufs HG M F N P R T B G O FT TS W C1 J I C2.
  assert (N1 : fst r <> []) by (intros H; apply N; unfold objects_of; now rewrite H).
  destruct (convert_xml L E lib free contents l0 expat e0 XL (cf_type c) g m r l F N1 R T B G C1 bufs J I) as (RF & OB & _).
  rewrite (map_same _ (XmlSpec.kept (cf_type c))) in OB by (eapply Forall_impl; [|exact P]; intros; now apply plain_xml).
  set (r1 := xml_reading (read_xml expat e0 (map Some bufs))) in *.
  assert (F1 : file_read r1) by constructor.
  assert (N2 : fst r1 <> []) by (intros H; apply N; rewrite <- OB; unfold objects_of; now rewrite H).
  destruct (convert_pbf K c m2 sched r1 file HK HG F1 N2) as (h & ps & LY & RD); rewrite ?OB; auto.
  exists h, ps. split; [exact LY|]. intros RB s S. destruct (RD RB s S) as (A1 & _ & A3). split; [exact A1|].
  rewrite A3; rewrite OB; [|exact TS]. apply map_same. eapply Forall_impl; [|exact P]. intros; now apply plain_pbf.
Qed.
