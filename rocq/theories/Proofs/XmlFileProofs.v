(** Whole XML files: documents, sections of change files, the way there and back. *)
From Coq Require Import Reals.
From Verif Require Import Base.Prelude Base.Decimal Model.Osm Model.Float Model.Time Model.Attr Model.OsmFile Model.Decfloat
  Model.Handler Model.Xml Spec.TimeSpec Spec.FloatSpec Spec.DecimalSpec Spec.AttrSpec Spec.XmlSpec
  Proofs.TimeProofs Proofs.AttrProofs Proofs.DecfloatProofs Proofs.XmlReadProofs Proofs.XmlWriteProofs.
From Verif Require Model.Pbf.

(* ---- objects ---- *)
Definition elems (ft : ftype) (os : list object) : list xml := map (object_elem ft) os.
Lemma op_eqb_refl o : op_eqb o o = true.
Proof. destruct o; [apply Ascii.eqb_refl|reflexivity]. Qed.
Lemma plain_objects ft os : Pbf.ft_eqb ft FtChange = false -> Forall in_range os ->
  xml_objects ft None os = Ok (flat_map calls_of (elems ft os), None).
Proof.
  intros N R. induction R as [|o r Ho Hr IH]; [reflexivity|]. cbn [xml_objects]. rewrite N, (write_object_elem ft o Ho). cbn [obind]. rewrite IH. reflexivity.
Qed.
Lemma op_section o : op_element (op_of (obj_attrs o)) = [WStart (section_name o)].
Proof. unfold op_of, section_name. destruct (o_visible _); [destruct (_ =? 1)|]; reflexivity. Qed.
Lemma op_same o o' : op_of (obj_attrs o) = op_of (obj_attrs o') <-> section_name o = section_name o'.
Proof.
  unfold op_of, section_name. destruct (o_visible (obj_attrs o)), (o_visible (obj_attrs o')); try destruct (o_version (obj_attrs o) =? 1); try destruct (o_version (obj_attrs o') =? 1); split; intros E; try reflexivity; try discriminate E.
Qed.
(** a list of sections *)
Definition section_elem (s : string * list object) : xml := Elem (fst s) [] (elems FtChange (snd s)).
Definition good_sections (secs : list (string * list object)) : Prop :=
  Forall (fun s => snd s <> [] /\ Forall (fun o => section_name o = fst s) (snd s)) secs /\ alternate (map fst secs).
Definition first_differs (last : option ascii) (secs : list (string * list object)) : Prop :=
  match secs with
  | (_, o :: _) :: _ => last <> Some (op_of (obj_attrs o))
  | _ => True
  end.
Definition closing (last : option ascii) : list wcall := match last with Some _ => [WEnd] | None => [] end.
Lemma change_objects os : Forall in_range os -> forall last, exists cs l' os1 secs,
  xml_objects FtChange last os = Ok (cs, l') /\ os = os1 ++ flat_map snd secs /\ good_sections secs /\ first_differs last secs /\
  Forall (fun o => last = Some (op_of (obj_attrs o))) os1 /\
  cs ++ open_close_op_tag None l' = flat_map calls_of (elems FtChange os1) ++ closing last ++ flat_map calls_of (map section_elem secs).
Proof.
  intros R. induction R as [|o r Ho Hr IH]; intros last.
  { exists [], last, [], []. split; [reflexivity|]. split; [reflexivity|]. split; [split; constructor|]. split; [exact I|]. split; [constructor|]. destruct last; reflexivity. }
  destruct (IH (Some (op_of (obj_attrs o)))) as (cs & l' & os1 & secs & E & S & G & D & O & C).
  cbn [xml_objects Pbf.ft_eqb]. rewrite (write_object_elem FtChange o Ho). cbn [obind]. rewrite E. cbn [obind fst snd].
  eexists. exists l'. destruct (op_eqb (Some (op_of (obj_attrs o))) last) eqn:Q.
  - exists (o :: os1), secs. split; [reflexivity|]. destruct last as [l|]; [|discriminate]. cbn [op_eqb] in Q. apply Ascii.eqb_eq in Q. subst l.
    split; [rewrite S; reflexivity|]. split; [exact G|]. split; [exact D|]. split; [constructor; [reflexivity|exact O]|].
    unfold open_close_op_tag at 1. rewrite op_eqb_refl. cbn [app]. rewrite <- app_assoc, C. cbn [elems map flat_map]. rewrite <- app_assoc. reflexivity.
  - exists [], ((section_name o, o :: os1) :: secs). split; [reflexivity|].
    split; [rewrite S; reflexivity|]. destruct G as [G1 G2].
    assert (SN : Forall (fun x => section_name x = section_name o) (o :: os1)).
    { constructor; [reflexivity|]. eapply Forall_impl; [|exact O]. intros x Hx. cbn beta in Hx. injection Hx as Hx. apply op_same. symmetry. exact Hx. }
    split; [split|].
    + constructor; [|exact G1]. cbn [fst snd]. split; [discriminate|exact SN].
    + cbn [map fst]. destruct secs as [|[k xs] rest]; [exact I|]. cbn [map fst] in *. split; [|exact G2].
      inversion G1 as [|x y [NE F] _]; subst. cbn [fst snd] in *. destruct xs as [|x xs]; [contradiction|]. cbn [first_differs] in D. inversion F as [|x' y' Fx _]; subst.
      intros Eq. apply D. f_equal. apply op_same. exact Eq.
    + split; [cbn [first_differs]; intros Eq; rewrite Eq, op_eqb_refl in Q; discriminate|]. split; [constructor|].
      rewrite <- app_assoc, <- app_assoc, C. change (flat_map calls_of (elems FtChange [])) with (@nil wcall).
      change (map section_elem ((section_name o, o :: os1) :: secs)) with (Elem (section_name o) [] (object_elem FtChange o :: elems FtChange os1) :: map section_elem secs).
      assert (OC : open_close_op_tag (Some (op_of (obj_attrs o))) last = closing last ++ [WStart (section_name o)]).
      { unfold open_close_op_tag. rewrite Q, op_section. reflexivity. }
      rewrite OC. cbn [flat_map closing app]. rewrite calls_elem. cbn [wattrs map flat_map app]. repeat rewrite <- app_assoc. cbn [app]. repeat rewrite <- app_assoc. reflexivity.
Qed.

(* ---- bounds ---- *)
Definition bounds_xattrs (b : bounds) : xattrs :=
  [("minlon", printf_f 7 (pos_lon (bottom_left b))); ("minlat", printf_f 7 (pos_lat (bottom_left b)));
   ("maxlon", printf_f 7 (pos_lon (top_right b))); ("maxlat", printf_f 7 (pos_lat (top_right b)))]%string.
Definition bounds_elems (b : bounds) : list xml := if bounds_defined b then [Elem "bounds" (bounds_xattrs b) []] else [].
Definition root_xattrs (generator : string) : xattrs := [("version", "0.6"); ("generator", generator)]%string.
Definition root_name (ft : ftype) : string := (if Pbf.ft_eqb ft FtChange then "osmChange" else "osm")%string.
Lemma init_calls ft g b kids : xml_init ft g b ++ flat_map calls_of kids ++ [WEnd] =
  WSetup :: calls_of (Elem (root_name ft) (root_xattrs g) (bounds_elems b ++ kids)).
Proof. unfold xml_init, bounds_elems. rewrite calls_elem, flat_map_app, <- !app_assoc. destruct (bounds_defined b); reflexivity. Qed.
Lemma bounds_elems_readable b : bounds_in_range b -> Forall (readable false) (bounds_elems b).
Proof.
  intros R. unfold bounds_elems. destruct (bounds_defined b) eqn:D; [|constructor]. destruct (R D) as (H1 & H2 & H3 & H4 & _).
  constructor; [|constructor]. cbn. split; [intros _|].
  - split; [repeat (constructor; [cbn; intuition discriminate|]); constructor|]. unfold if_there. cbn. repeat split; apply coord_readable; assumption.
  - repeat split; discriminate.
Qed.
Lemma corners_unique b c : bounds_in_range b -> bounds_defined b = true -> corners_described (bounds_xattrs b) c -> c = (bottom_left b, top_right b).
Proof.
  intros R D. destruct (R D) as (H1 & H2 & H3 & H4 & _). unfold corners_described, coordinate_described. cbn. intros (A1 & A2 & A3 & A4).
  apply near_unique in A1; [|exact H1]. apply near_unique in A2; [|exact H2]. apply near_unique in A3; [|exact H3]. apply near_unique in A4; [|exact H4].
  destruct c as [[x y] [x' y']], b as [[x2 y2] [x3 y3]]. cbn in *. congruence.
Qed.
Lemma bounds_back b cs : bounds_in_range b -> Forall2 corners_described (flat_map bounds_in (bounds_elems b)) cs ->
  fold_left bounds_extend (flat_map (fun c => [fst c; snd c]) cs) bounds_new = kept_bounds b.
Proof.
  intros R F. unfold bounds_elems, kept_bounds in *. destruct (bounds_defined b) eqn:D; cbn in F.
  - inversion F as [|x y l l' Hc F']; subst. inversion F'; subst. rewrite (corners_unique b y R D Hc). cbn [flat_map app fold_left fst snd].
    destruct (R D) as (_ & _ & _ & _ & L1 & L2). unfold bounds_defined in D. unfold bounds_extend at 2. change (pos_defined (bottom_left bounds_new)) with false. cbn iota.
    unfold bounds_extend. cbn [bottom_left top_right]. rewrite D. destruct b as [[x y0] [x' y']]. cbn [bottom_left top_right px py] in *.
    replace (x' <? x) with false by lia. replace (y' <? y0) with false by lia. rewrite !Z.gtb_ltb.
    destruct (Z.ltb_spec x x'), (Z.ltb_spec y0 y'); repeat f_equal; lia.
  - inversion F; subst. reflexivity.
Qed.

(* ---- documents ---- *)
Lemma xml_calls_plain ft g b os : Pbf.ft_eqb ft FtChange = false -> Forall in_range os ->
  xml_calls ft g b os = Ok (WSetup :: calls_of (Elem "osm" (root_xattrs g) (bounds_elems b ++ elems ft os))).
Proof.
  intros N R. unfold xml_calls. rewrite (plain_objects ft os N R). cbn [obind fst snd]. rewrite N. cbn [app]. rewrite init_calls. unfold root_name. rewrite N. reflexivity.
Qed.
Lemma xml_calls_change g b os : Forall in_range os -> exists secs, flat_map snd secs = os /\ good_sections secs /\
  xml_calls FtChange g b os = Ok (WSetup :: calls_of (Elem "osmChange" (root_xattrs g) (bounds_elems b ++ map section_elem secs))).
Proof.
  intros R. destruct (change_objects os R None) as (cs & l' & os1 & secs & E & S & G & D & O & C). exists secs.
  destruct os1 as [|o os1]; [|inversion O; discriminate]. split; [symmetry; exact S|]. split; [exact G|].
  unfold xml_calls. rewrite E. cbn [obind fst snd Pbf.ft_eqb]. rewrite (app_assoc cs), C. cbn [elems map flat_map closing app]. rewrite init_calls. reflexivity.
Qed.
(** every file is a document, in which the objects are found in order *)
Definition located (ft : ftype) (o : object) : bool * xml := (in_delete ft (obj_attrs o), object_elem ft o).
Lemma is_object_elem ft o : exists n a kids, object_elem ft o = Elem n a kids /\ is_object_name n = true.
Proof. destruct o; repeat eexists. Qed.
Lemma objects_elems ft del os : flat_map (objects_in del) (elems ft os) = map (fun o => (del, object_elem ft o)) os.
Proof.
  induction os as [|o r IH]; [reflexivity|]. cbn [elems map flat_map]. fold (elems ft r). rewrite IH. destruct (is_object_elem ft o) as (n & a & k & E & N).
  rewrite E. cbn [objects_in]. rewrite N. reflexivity.
Qed.
Lemma bounds_in_objects ft os : flat_map bounds_in (elems ft os) = [].
Proof.
  induction os as [|o r IH]; [reflexivity|]. cbn [elems map flat_map]. fold (elems ft r). rewrite IH. destruct (is_object_elem ft o) as (n & a & k & E & N).
  rewrite E. cbn [bounds_in]. rewrite N. reflexivity.
Qed.
Lemma objects_bounds b del : flat_map (objects_in del) (bounds_elems b) = [].
Proof. unfold bounds_elems. destruct (bounds_defined b); reflexivity. Qed.
Lemma section_names o : section_name o = "create"%string \/ section_name o = "modify"%string \/ section_name o = "delete"%string.
Proof. unfold section_name. destruct (o_visible _); [destruct (_ =? 1)|]; auto. Qed.
Lemma section_delete o : String.eqb (section_name o) "delete" = negb (o_visible (obj_attrs o)).
Proof. unfold section_name. destruct (o_visible _); [destruct (_ =? 1)|]; reflexivity. Qed.
Lemma section_object o : is_object_name (section_name o) = false /\ String.eqb (section_name o) "bounds" = false /\
  section_name o <> "osm"%string /\ section_name o <> "osmChange"%string.
Proof. destruct (section_names o) as [E|[E|E]]; rewrite E; repeat split; discriminate. Qed.
Lemma objects_sections secs : good_sections secs -> flat_map (objects_in false) (map section_elem secs) = map (located FtChange) (flat_map snd secs).
Proof.
  intros [G _]. induction G as [|[k xs] r [NE F] G IH]; [reflexivity|]. cbn [map flat_map]. rewrite IH, map_app. f_equal. cbn [fst snd] in *.
  destruct xs as [|x xs]; [contradiction|]. inversion F as [|y z Fx _]; subst. unfold section_elem. cbn [fst snd objects_in]. rewrite (proj1 (section_object x)).
  rewrite objects_elems. apply map_ext_in. intros o I. unfold located, in_delete. cbn [Pbf.ft_eqb andb orb]. rewrite Forall_forall in F. rewrite <- (F o I), section_delete. reflexivity.
Qed.
Lemma bounds_in_sections secs : good_sections secs -> flat_map bounds_in (map section_elem secs) = [].
Proof.
  intros [G _]. induction G as [|[k xs] r [NE F] G IH]; [reflexivity|]. cbn [map flat_map]. rewrite IH, app_nil_r. cbn [fst snd] in *.
  destruct xs as [|x xs]; [contradiction|]. inversion F as [|y z Fx _]; subst. unfold section_elem. cbn [fst snd bounds_in]. rewrite (proj1 (section_object x)), (proj1 (proj2 (section_object x))).
  rewrite bounds_in_objects. reflexivity.
Qed.
Lemma elems_readable ft del os : Forall in_range os -> Forall (readable del) (elems ft os).
Proof. intros R. apply Forall_map. eapply Forall_impl; [|exact R]. intros o Ho. apply object_readable. exact Ho. Qed.
Lemma all_forall P (l : list xml) : Forall P l -> (fix all (l : list xml) : Prop := match l with [] => True | k :: r => P k /\ all r end) l.
Proof. induction 1; [exact I|]. split; assumption. Qed.
Lemma sections_readable secs : good_sections secs -> Forall in_range (flat_map snd secs) -> Forall (readable false) (map section_elem secs).
Proof.
  intros [G _]. induction G as [|[k xs] r [NE F] G IH]; intros R; [constructor|]. cbn [map flat_map] in *. apply Forall_app in R. destruct R as [R1 R2]. constructor; [|apply IH; exact R2].
  cbn [fst snd] in *. destruct xs as [|x xs]; [contradiction|]. inversion F as [|y z Fx _]; subst. unfold section_elem. cbn [fst snd]. 
  destruct (section_object x) as (N1 & N2 & N3 & N4). cbn [readable]. rewrite N1. split; [intros E; rewrite E in N2; discriminate|]. split; [exact N3|]. split; [exact N4|]. split; [discriminate|].
  apply all_forall. apply elems_readable. exact R1.
Qed.
Lemma file_tree ft g b os : Forall in_range os -> bounds_in_range b -> exists kids,
  xml_calls ft g b os = Ok (WSetup :: calls_of (Elem (root_name ft) (root_xattrs g) kids)) /\
  Forall (readable false) kids /\ flat_map (objects_in false) kids = map (located ft) os /\
  flat_map bounds_in kids = flat_map bounds_in (bounds_elems b) /\
  (exists rest, kids = bounds_elems b ++ rest /\ (rest = elems ft os \/ exists secs, good_sections secs /\ flat_map snd secs = os /\ ft = FtChange /\ rest = map section_elem secs)).
Proof.
  intros R B. destruct (Pbf.ft_eqb ft FtChange) eqn:C.
  - assert (ft = FtChange) as -> by (destruct ft; [discriminate C|discriminate C|reflexivity]).
    destruct (xml_calls_change g b os R) as (secs & S & G & E). eexists. split; [exact E|]. split; [|split; [|split]].
    + apply Forall_app. split; [apply bounds_elems_readable; exact B|]. apply sections_readable; [exact G|]. rewrite S. exact R.
    + rewrite flat_map_app, objects_bounds, objects_sections by exact G. rewrite S. reflexivity.
    + rewrite flat_map_app, bounds_in_sections by exact G. apply app_nil_r.
    + eexists. split; [reflexivity|]. right. exists secs. auto.
  - eexists. split; [unfold root_name; rewrite C; apply xml_calls_plain; assumption|]. split; [|split; [|split]].
    + apply Forall_app. split; [apply bounds_elems_readable; exact B|apply elems_readable; exact R].
    + rewrite flat_map_app, objects_bounds, objects_elems. cbn [app]. apply map_ext. intros o. unfold located, in_delete. rewrite C. reflexivity.
    + rewrite flat_map_app, bounds_in_objects. apply app_nil_r.
    + eexists. split; [reflexivity|]. left. reflexivity.
Qed.

(* ---- reading what was written ---- *)
Lemma located_back ft os os' : Forall in_range os -> Forall2 (fun de o => described (fst de) (snd de) o) (map (located ft) os) os' -> os' = map (kept ft) os.
Proof.
  intros R. revert os'. induction R as [|o r Ho Hr IH]; intros os' F; inversion F as [|x y l l' Hd F']; subst; [reflexivity|]. cbn [map]. f_equal; [|apply IH; exact F'].
  cbn [located fst snd] in Hd. eapply object_unique; [exact Ho|exact Hd|]. apply object_kept. exact Ho.
Qed.
Lemma tree_read ft g b os kids : Forall in_range os -> bounds_in_range b -> Forall (readable false) kids ->
  flat_map (objects_in false) kids = map (located ft) os -> flat_map bounds_in kids = flat_map bounds_in (bounds_elems b) ->
  exists st, x_events (events_of (Elem (root_name ft) (root_xattrs g) kids)) x_new = (st, Ok tt) /\
    x_groups st = announced (map (kept ft) os) /\ x_meta st = Pbf.mkMeta g (kept_bounds b).
Proof.
  intros R B K O Bi. destruct (document_read (root_name ft) (root_xattrs g) kids) as (st & os' & E & G & F & M & cs & Fc & Mb).
  { split; [|exact K]. intros _. split; [|reflexivity]. repeat (constructor; [cbn; intuition discriminate|]); constructor. }
  exists st. split; [exact E|]. rewrite O in F. rewrite (located_back ft os os' R F) in G. split; [exact G|].
  rewrite Bi in Fc. rewrite (bounds_back b cs B Fc) in Mb. destruct (x_meta st) as [mg mb]. cbn [Pbf.mt_generator Pbf.mt_bounds] in *. rewrite Mb, M. unfold root_name. destruct (Pbf.ft_eqb ft FtChange); reflexivity.
Qed.

(* ---- texts ---- *)
Fixpoint plain (s : string) : Prop := match s with EmptyString => True | String c r => 32 <= byte c < 128 /\ plain r end.
Ltac plain_lit := vm_compute; repeat split; first [reflexivity | discriminate].
Lemma plain_text s : plain s -> xml_text s.
Proof.
  induction s as [|c r IH]; intros H; [constructor|]. destruct H as [Hc Hr]. change (String c r) with (String c "" ++ r)%string. constructor; [constructor; right; exact Hc|apply IH; exact Hr].
Qed.
Lemma plain_app a b : plain a -> plain b -> plain (a ++ b).
Proof. induction a as [|c r IH]; intros A B; [exact B|]. destruct A. split; [assumption|]. apply IH; assumption. Qed.
Lemma digits_plain s : forall a n, digits_from a s = Some n -> plain s.
Proof.
  induction s as [|c r IH]; intros a n E; [exact I|]. cbn [digits_from] in E. unfold digit in E. destruct ((48 <=? Z.of_nat (nat_of_ascii c)) && (Z.of_nat (nat_of_ascii c) <=? 57)) eqn:D; [|discriminate].
  split; [unfold byte; lia|]. eapply IH. exact E.
Qed.
Lemma number_plain s n : number s n -> plain s.
Proof. intros [_ H]. eapply digits_plain. exact H. Qed.
Lemma print_plain n : plain (print_Z n).
Proof.
  unfold print_Z. destruct (Z.ltb_spec n 0).
  - split; [plain_lit|]. apply (number_plain _ (- n)). apply print_number. lia.
  - apply (number_plain _ n). apply print_number. lia.
Qed.
Lemma coord_plain x : in_i32 x -> plain (printf_f 7 (fix_to_double x)).
Proof.
  intros Hx. rewrite (printf_coord x Hx). apply plain_app; [destruct (x <? 0); plain_lit|]. unfold print_point.
  apply plain_app; [apply (number_plain _ (Z.abs x / 10 ^ Z.of_nat 7)); apply print_number; change (10 ^ Z.of_nat 7) with 10000000; lia|]. apply plain_app; [plain_lit|].
  eapply (digits_plain _ 0). apply print_fixed_number. change (10 ^ Z.of_nat 7) with 10000000. lia.
Qed.
Lemma iso_plain t s : iso_text t s -> plain s.
Proof.
  intros (n & d & ys & ms & ds & h & hs & mi & mis & se & ses & _ & _ & _ & _ & _ & [_ N1] & [_ N2] & [_ N3] & [_ N4] & [_ N5] & [_ N6] & ->).
  repeat (apply plain_app; [first [eapply number_plain; eassumption|plain_lit]|]). plain_lit.
Qed.
Lemma letters_name s : letters s -> s <> ""%string -> xml_name s.
Proof. intros. split; assumption. Qed.
Ltac name := apply letters_name; [unfold letters, letter, byte; cbn; lia|discriminate].
Definition attr_ok (kv : string * string) : Prop := xml_name (fst kv) /\ xml_text (snd kv).
Lemma meta_writable ft a : attrs_in_range a -> xml_text (o_user a) -> Forall attr_ok (meta_attrs ft a).
Proof.
  intros (_ & _ & _ & _ & T & _) U. unfold meta_attrs.
  repeat (apply Forall_app; split).
  - constructor; [|constructor]. split; [name|apply plain_text, print_plain].
  - destruct (o_version a =? 0); constructor; [|constructor]. split; [name|apply plain_text, print_plain].
  - destruct (Z.eqb_spec (o_timestamp a) 0); constructor; [|constructor]. split; [name|]. apply plain_text. eapply iso_plain. apply time_ok; assumption.
  - destruct (o_uid a >? 0); [|constructor]. constructor; [split; [name|apply plain_text, print_plain]|]. constructor; [|constructor]. split; [name|exact U].
  - destruct (o_changeset a =? 0); constructor; [|constructor]. split; [name|apply plain_text, print_plain].
  - destruct (ft_multiple ft && negb (Pbf.ft_eqb ft FtChange)); constructor; [|constructor]. split; [name|]. apply plain_text. cbn [snd]. destruct (o_visible a); plain_lit.
Qed.
Lemma pos_writable p : in_i32 (px p) -> in_i32 (py p) -> Forall attr_ok (pos_attrs p).
Proof.
  intros Hx Hy. unfold pos_attrs. destruct (pos_defined p); [|constructor].
  constructor; [split; [name|apply plain_text, coord_plain; exact Hy]|]. constructor; [|constructor]. split; [name|apply plain_text, coord_plain; exact Hx].
Qed.
Lemma tags_writable ts : Forall (fun t => xml_text (tkey t) /\ xml_text (tvalue t)) ts -> Forall writable (tag_elems ts).
Proof.
  intros H. apply Forall_map. eapply Forall_impl; [|exact H]. intros t [K V]. constructor; [name|repeat (constructor; [cbn; intuition discriminate|]); constructor| |constructor].
  constructor; [split; [name|exact K]|]. constructor; [|constructor]. split; [name|exact V].
Qed.
Lemma object_writable ft o : in_range o -> has_xml_texts o -> writable (object_elem ft o).
Proof.
  intros [A P] (U & T & M). destruct o as [n|w|r]; cbn [object_elem obj_attrs] in *.
  - constructor; [name|apply NoDup_meta| |apply tags_writable; exact T]. apply Forall_app. split; [apply meta_writable; assumption|apply pos_writable; apply P].
  - constructor; [name|apply NoDup_meta'|apply meta_writable; assumption|]. apply Forall_app. split; [|apply tags_writable; exact T].
    apply Forall_map. apply Forall_forall. intros x _. constructor; [name|repeat (constructor; [cbn; intuition discriminate|]); constructor| |constructor].
    constructor; [|constructor]. split; [name|apply plain_text, print_plain].
  - constructor; [name|apply NoDup_meta'|apply meta_writable; assumption|]. apply Forall_app. split; [|apply tags_writable; exact T].
    apply Forall_map. eapply Forall_impl; [|exact M]. intros x Hx. constructor; [name|repeat (constructor; [cbn; intuition discriminate|]); constructor| |constructor].
    constructor; [split; [name|]|constructor; [split; [name|apply plain_text, print_plain]|constructor; [|constructor]; split; [name|exact Hx]]].
    apply plain_text. cbn [snd]. unfold type_name. destruct (Ascii.eqb _ "n"); [plain_lit|]. destruct (Ascii.eqb _ "w"); [plain_lit|]. destruct (Ascii.eqb _ "r"); plain_lit.
Qed.
Lemma elems_writable ft os : Forall in_range os -> Forall has_xml_texts os -> Forall writable (elems ft os).
Proof.
  intros R T. apply Forall_map. rewrite Forall_forall in *. intros o I. apply object_writable; auto.
Qed.
Lemma sections_writable secs : good_sections secs -> Forall in_range (flat_map snd secs) -> Forall has_xml_texts (flat_map snd secs) -> Forall writable (map section_elem secs).
Proof.
  intros [G _]. induction G as [|[k xs] r [NE F] G IH]; intros R T; [constructor|]. cbn [map flat_map] in *. apply Forall_app in R. destruct R as [R1 R2]. apply Forall_app in T. destruct T as [T1 T2].
  constructor; [|apply IH; assumption]. cbn [fst snd] in *. destruct xs as [|x xs]; [contradiction|]. inversion F as [|y z Fx _]; subst.
  constructor; [|constructor|constructor|]; cbn [fst snd].
  - destruct (section_names x) as [E|[E|E]]; rewrite E; name.
  - apply elems_writable; assumption.
Qed.
Lemma tree_writable ft g b os rest : Forall in_range os -> Forall has_xml_texts os -> bounds_in_range b -> xml_text g ->
  (rest = elems ft os \/ exists secs, good_sections secs /\ flat_map snd secs = os /\ ft = FtChange /\ rest = map section_elem secs) ->
  writable (Elem (root_name ft) (root_xattrs g) (bounds_elems b ++ rest)).
Proof.
  intros R T B G H. constructor.
  - unfold root_name. destruct (Pbf.ft_eqb ft FtChange); name.
  - repeat (constructor; [cbn; intuition discriminate|]); constructor.
  - constructor; [split; [name|apply plain_text; plain_lit]|]. constructor; [|constructor]. split; [name|exact G].
  - apply Forall_app. split.
    + unfold bounds_elems. destruct (bounds_defined b) eqn:D; constructor; [|constructor]. destruct (B D) as (H1 & H2 & H3 & H4 & _).
      constructor; [name|repeat (constructor; [cbn; intuition discriminate|]); constructor| |constructor].
      repeat (constructor; [split; [name|apply plain_text, coord_plain; assumption]|]). constructor.
    + destruct H as [->|(secs & Gs & <- & _ & ->)]; [apply elems_writable; assumption|apply sections_writable; assumption].
Qed.

(* ---- through the libraries ---- *)
Lemma exec_succeed {L} (lib : L -> wcall -> L * bool) cs : forall l l', exec_calls lib l cs = (l', Ok tt) -> all_succeed lib l cs = Some l'.
Proof.
  induction cs as [|c r IH]; intros l l' E; cbn [exec_calls all_succeed] in *; [congruence|]. destruct (lib l c) as [l1 [|]]; [apply IH; exact E|discriminate].
Qed.
Lemma write_xml_ok {L} (lib : L -> wcall -> L * bool) free l ft g b os l2 : write_xml lib free l ft g b os = (l2, true, Ok tt) ->
  exists cs l1, xml_calls ft g b os = Ok cs /\ all_succeed lib l cs = Some l1 /\ free l1 = (l2, true).
Proof.
  unfold write_xml. destruct (xml_calls ft g b os) as [cs| | |]; try discriminate. destruct (exec_calls lib l cs) as [l1 [[]| | |]] eqn:E; try discriminate.
  destruct (free l1) as [l3 fl] eqn:F. intros H. injection H as <- ->. exists cs, l1. split; [reflexivity|]. split; [apply exec_succeed; exact E|exact F].
Qed.
Theorem xml_roundtrip {L E} (lib : L -> wcall -> L * bool) free contents l0 (expat : E -> string -> bool -> E * list event * bool) e0 :
  xml_libraries lib free contents l0 expat e0 -> forall ft g b os l,
  Forall in_range os -> Forall has_xml_texts os -> bounds_in_range b -> xml_text g ->
  write_xml lib free l0 ft g b os = (l, true, Ok tt) ->
  forall bufs, joined bufs = contents l -> ~ In ""%string bufs ->
  exists st, read_xml expat e0 (map Some bufs) = (st, Ok tt) /\
    x_groups st = announced (map (kept ft) os) /\ x_meta st = Pbf.mkMeta g (kept_bounds b).
Proof.
  intros X ft g b os l R T B G W bufs J NI. destruct (write_xml_ok _ _ _ _ _ _ _ _ W) as (cs & l1 & C & S & F).
  destruct (file_tree ft g b os R B) as (kids & C' & K & O & Bi & rest & -> & H). rewrite C in C'. injection C' as ->.
  pose proof (X _ _ _ (tree_writable ft g b os rest R T B G H) S F) as P.
  rewrite (read_xml_parses expat e0 _ _ bufs P J NI). eapply tree_read; eassumption.
Qed.
