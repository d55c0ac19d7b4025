(** Extracts from histories, end to end. *)
From Verif Require Import Base.Prelude Model.Osm Model.OsmFile Model.Handler Model.Pbf Model.Xml Model.Convert Model.Programs
  Spec.HandlerSpec Spec.ConvertSpec Spec.ProgramsSpec Proofs.HandlerProofs Proofs.Handler2Proofs Proofs.ConvertNoStop Proofs.ConvertProofs
  Proofs.Convert2Proofs Proofs.ProgramsProofs.
From Verif Require Spec.PbfSpec Spec.XmlSpec Spec.XmlText.
From Verif Require Proofs.PbfTheorems Proofs.XmlTheorems Proofs.XmlFileProofs.

(* ---- only complete files ---- *)
Lemma read_to_end S (step : callback -> S -> S * option halt) r s s' b : never_stops step -> file_read r ->
  input_read step r s = (s', None, b) -> read_fully r.
Proof.
  intros N F. destruct (file_typed r F) as [T NS]. unfold input_read, read_fully.
  destruct (snd r) as [[]|e| |]; [reflexivity| | |].
  - destruct (parse_fails _ step (fst r) e s N) as (h & H & _); auto; [congruence|].
    destruct (parse step (fst r) (Some e) s) as [st h']; cbn [snd] in H. subst h'. destruct h; discriminate.
  - pose proof (on_groups _ N (fst r)) as G. unfold goes_on, andthen in *.
    match goal with |- context [read_groups ?a ?b ?d] => specialize (G d); destruct (read_groups a b d) as [st [[[]|]|]] end;
      cbn [snd] in G; first [discriminate|destruct (G eq_refl)].
  - pose proof (on_groups _ N (fst r)) as G. unfold goes_on, andthen in *.
    match goal with |- context [read_groups ?a ?b ?d] => specialize (G d); destruct (read_groups a b d) as [st [[[]|]|]] end;
      cbn [snd] in G; first [discriminate|destruct (G eq_refl)].
Qed.
Lemma range_never S (out : callback -> S -> S * option halt) from to : never_stops out -> never_stops (range_handler out from to).
Proof. intros N. apply stacked_never; [exact endtime_defined|]; apply stacked_never; [apply range_defined|exact N]. Qed.
Lemma range_pbf_complete K c m sched from to r file : file_read r -> range_to_pbf K c m sched from to r = Ok file -> read_fully r.
Proof.
  intros F. unfold range_to_pbf. destruct (input_read _ _ _) as [[[l [u w]] [[e|]|]] b] eqn:E; try discriminate. intros _.
  revert E. apply read_to_end; [|exact F]. apply range_never, pbf_never.
Qed.
Lemma range_xml_complete L (lib : L -> wcall -> L * bool) free l ft g m from to r l' fl : file_read r ->
  range_to_xml lib free l ft g m from to r = (l', fl, Ok tt) -> read_fully r.
Proof.
  intros F. unfold range_to_xml. destruct (input_read _ _ _) as [[[l1 [u w]] [[e|]|]] b] eqn:E; try discriminate. intros _.
  revert E. apply read_to_end; [|exact F]. apply range_never, xml_never.
Qed.

(* ---- the output file ---- *)
Lemma range_xml : forall L E (lib : L -> wcall -> L * bool) free contents l0 (expat : E -> string -> bool -> E * list event * bool) e0,
  XmlSpec.xml_libraries lib free contents l0 expat e0 -> forall ft g m from to r l,
  file_read r -> fst r <> [] -> Forall XmlSpec.in_range (selected from to r) -> Forall XmlSpec.has_xml_texts (selected from to r) ->
  XmlSpec.bounds_in_range (mt_bounds m) -> XmlSpec.xml_text g ->
  range_to_xml lib free l0 ft g m from to r = (l, true, Ok tt) ->
  forall bufs, XmlSpec.joined bufs = contents l -> ~ In ""%string bufs ->
  let r2 := xml_reading (read_xml expat e0 (map Some bufs)) in
  read_fully r /\ read_fully r2 /\ objects_of r2 = map (XmlSpec.kept ft) (selected from to r).
Proof.
  intros L E lib free contents l0 expat e0 XL ft g m from to r l F N R T B G C bufs J I.
  pose proof (range_xml_complete L lib free l0 ft g m from to r l true F C) as RF. destruct (file_typed r F) as [W _].
  rewrite (range_xml_is_convert L lib free l0 ft g m from to r F RF N) in C.
  apply (typed_xml_is_write lib free ft g m l0 (extract from to (fst r), Ok tt) l true) in C;
    [|exact (extract_typed from to (fst r) W)|reflexivity|exact (extract_some from to (fst r) N)].
  rewrite extract_objects in C.
  destruct (XmlFileProofs.xml_roundtrip lib free contents l0 expat e0 XL ft g (mt_bounds m) (selected from to r) l R T B G C bufs J I) as (st & -> & X1 & X2).
  cbv zeta. split; [exact RF|]. split; [reflexivity|]. unfold objects_of at 1, xml_reading. cbn [fst]. rewrite X1. apply announced_objects.
Qed.
Lemma range_pbf : forall K c m sched from to r file, PbfSpec.codec_ok K -> PbfSpec.default_gran c ->
  file_read r -> fst r <> [] -> Forall PbfSpec.object_ok (selected from to r) -> PbfSpec.few_texts (selected from to r) ->
  PbfSpec.writes_complete sched -> range_to_pbf K c m sched from to r = Ok file ->
  read_fully r /\ exists h ps, PbfSpec.layout K c h ps file /\
    (PbfSpec.readable K c h ps -> forall s, PbfSpec.reads_ok s ->
       let r2 := pbf_reading (read_pbf K (cf_type c) (mkIfd file s)) in
       read_fully r2 /\ (forall t, PbfSpec.only t (fst r2) = ofilter t (map (PbfSpec.kept c) (selected from to r))) /\
       (PbfSpec.type_sorted (selected from to r) -> objects_of r2 = map (PbfSpec.kept c) (selected from to r))).
Proof.
  intros K c m sched from to r file HK HG F N O FT W C. pose proof (range_pbf_complete K c m sched from to r file F C) as RF.
  split; [exact RF|]. destruct (file_typed r F) as [T _].
  rewrite (range_pbf_is_convert K c m sched from to r F RF N) in C.
  rewrite (typed_pbf_is_write K c m sched (extract from to (fst r), Ok tt)) in C;
    [|exact (extract_typed from to (fst r) T)|reflexivity|exact (extract_some from to (fst r) N)].
  rewrite extract_objects in C.
  assert (C' : write_pbf K c m (selected from to r) sched = Ok file) by (destruct (write_pbf K c m (selected from to r) sched); try discriminate; exact C).
  exact (PbfTheorems.pbf_order K c m (selected from to r) sched file HK HG O FT W C').
Qed.
Lemma range_xml_works : forall ft g m from to r, file_read r -> read_fully r -> fst r <> [] ->
  Forall XmlSpec.in_range (selected from to r) -> Forall XmlSpec.has_xml_texts (selected from to r) ->
  XmlSpec.bounds_in_range (mt_bounds m) -> XmlSpec.xml_text g ->
  exists w, range_to_xml XmlText.tw_call XmlText.tw_free XmlText.tw_new ft g m from to r = (w, true, Ok tt).
Proof.
  intros ft g m from to r F RF N R T B G. destruct (XmlTheorems.xml_text_roundtrip ft g (mt_bounds m) (selected from to r) R T B G) as (w & C & _).
  exists w. destruct (file_typed r F) as [W _]. rewrite range_xml_is_convert by assumption.
  apply (typed_xml_is_write XmlText.tw_call XmlText.tw_free ft g m XmlText.tw_new (extract from to (fst r), Ok tt) w true);
    [exact (extract_typed from to (fst r) W)|reflexivity|exact (extract_some from to (fst r) N)|].
  rewrite extract_objects. exact C.
Qed.
Lemma range_pbf_works : forall K c m sched from to r, PbfSpec.codec_ok K -> PbfSpec.default_gran c ->
  bounds_defined (mt_bounds m) = false \/ PbfSpec.bounds_ok (mt_bounds m) ->
  file_read r -> read_fully r -> fst r <> [] ->
  Forall PbfSpec.object_ok (selected from to r) -> Forall PbfSpec.near_ids (selected from to r) -> Forall PbfSpec.known_members (selected from to r) ->
  PbfSpec.few_texts (selected from to r) -> PbfSpec.writes_complete sched ->
  (exists file, range_to_pbf K c m sched from to r = Ok file) \/ (cf_compress c = true /\ range_to_pbf K c m sched from to r = Throw ERuntime).
Proof.
  intros K c m sched from to r HK HG B F RF N O NI KM FT W. destruct (file_typed r F) as [T _]. rewrite range_pbf_is_convert by assumption.
  rewrite (typed_pbf_is_write K c m sched (extract from to (fst r), Ok tt));
    [|exact (extract_typed from to (fst r) T)|reflexivity|exact (extract_some from to (fst r) N)].
  rewrite extract_objects.
  destruct (PbfTheorems.pbf_written K c m (selected from to r) sched HK HG B O NI KM FT W) as [[file ->]|[C ->]]; cbn; eauto.
Qed.

(* ---- what is selected at one instant ---- *)
Lemma Forall2_nth A B (R : A -> B -> Prop) : forall a b, List.length a = List.length b ->
  (forall i x y, nth_error a i = Some x -> nth_error b i = Some y -> R x y) -> Forall2 R a b.
Proof.
  induction a as [|x a IH]; intros [|y b] L H; try discriminate; constructor.
  - exact (H O x y eq_refl eq_refl).
  - apply IH; [now injection L|]. intros i u v. exact (H (S i) u v).
Qed.
Lemma ends_length os : List.length (ends os) = List.length os.
Proof. induction os as [|o r IH]; [reflexivity|]. cbn [ends List.length]. now rewrite IH. Qed.
Lemma picked_filter A (P : A -> Prop) (test : A -> bool) (B : Type) (K : A -> B) a b :
  Forall2 (fun x y => (test y = true <-> P x) /\ K y = K x) a b ->
  exists sel, picked P a sel /\ map K (filter test b) = map K sel.
Proof.
  induction 1 as [|x y a b [H1 H2] H (sel & S1 & S2)]; [exists []; split; [constructor|reflexivity]|]. cbn [filter].
  destruct (test y) eqn:E.
  - exists (x :: sel). split; [constructor; [now apply H1|exact S1]|]. cbn [map]. now rewrite H2, S2.
  - exists sel. split; [constructor; [|exact S1]|exact S2]. intros Q. apply H1 in Q. discriminate.
Qed.
Lemma picked_app A (P : A -> Prop) a a' b b' : picked P a a' -> picked P b b' -> picked P (a ++ b) (a' ++ b').
Proof. induction 1; intros H'; [exact H'| |]; cbn; constructor; auto. Qed.
Lemma next_found os l1 o l2 n : history os -> os = l1 ++ o :: l2 -> next_version os o n -> exists m, l2 = n :: m.
Proof.
  intros H E (I & Hid & V & B).
  assert (L : In n l2).
  { rewrite E in I. apply in_app_or in I as [I|[I|I]]; [|subst; lia|exact I]. exfalso.
    apply in_split in I as (a & b & ->). rewrite <- app_assoc in E. cbn in E. rewrite E in H.
    destruct (sorted_between _ _ a n b o l2 H) as [[Q|[_ Q]] _]; [rewrite Hid in Q|]; lia. }
  pose proof (following_version os l1 o l2 n H E L Hid B) as F.
  apply in_split in L as (m1 & m2 & ->). destruct m1 as [|x m1]; [now exists m2|]. exfalso. rewrite E in H.
  destruct (sorted_between _ _ l1 o (x :: m1) n m2 H) as [_ Q]. destruct (Q x (or_introl eq_refl)) as [Q1 Q2].
  assert (X : obj_id x = obj_id o) by (destruct Q1 as [Q1|[Q1 _]]; auto; destruct Q2 as [Q2|[Q2 _]]; [rewrite Hid in Q2; lia|congruence]).
  apply (B x); [rewrite E; apply in_or_app; right; right; left; auto|exact X|].
  destruct Q1 as [Q1|[_ Q1]]; [rewrite X in Q1; lia|]. destruct Q2 as [Q2|[_ Q2]]; [rewrite X, Hid in Q2; lia|]. lia.
Qed.
Lemma next_follows os l1 o n m : history os -> os = l1 ++ o :: n :: m -> obj_id n = obj_id o -> next_version os o n.
Proof.
  intros H E Hid. rewrite E in H. destruct (sorted_between _ _ l1 o [] n m H) as [[Q|[_ Q]] _]; [rewrite Hid in Q; lia|].
  split; [rewrite E; apply in_or_app; right; right; left; auto|]. split; [exact Hid|]. split; [exact Q|].
  intros x I X [V1 V2]. rewrite E in I. apply in_app_or in I as [I|[I|[I|I]]]; subst; try lia.
  - apply in_split in I as (a & b & ->). rewrite <- app_assoc in H. cbn in H.
    destruct (sorted_between _ _ a x b o (n :: m) H) as [[U|[_ U]] _]; [rewrite X in U|]; lia.
  - apply in_split in I as (a & b & ->). change (l1 ++ o :: n :: a ++ x :: b) with (l1 ++ [o] ++ n :: a ++ x :: b) in H.
    rewrite app_assoc in H. destruct (sorted_between _ _ (l1 ++ [o]) n a x b H) as [[U|[_ U]] _]; [rewrite X, Hid in U|]; lia.
Qed.
Lemma end_is_next os t l1 o l2 o' : history os -> chronological os -> (forall x, In x os -> obj_endtime x = 0) ->
  os = l1 ++ o :: l2 -> nth_error (ends os) (List.length l1) = Some o' -> obj_timestamp o <= t ->
  (obj_endtime o' = t <-> exists n, next_version os o n /\ obj_timestamp n = t).
Proof.
  intros H [C0 C] E0 E N T. destruct (ends_app l1 o l2) as (l1' & X & L).
  rewrite E, X, <- L, nth_error_app2, Nat.sub_diag in N by lia.
  assert (Ho : In o os) by (rewrite E; apply in_or_app; right; left; auto). pose proof (C0 o Ho) as P.
  assert (D : forall e a, obj_endtime (with_endtime a e) = e) by (intros e [[]|[]|[]]; reflexivity).
  destruct l2 as [|n m].
  - cbn in N. injection N as <-. split; [rewrite (E0 o Ho); lia|]. intros (n & V & _). destruct (next_found _ _ _ _ _ H E V). discriminate.
  - rewrite ends_cons2 in N. cbn [nth_error] in N. destruct (Z.eqb_spec (obj_id n) (obj_id o)) as [Hid|Hid]; injection N as <-.
    + rewrite D. split.
      * intros Q. exists n. split; [eapply next_follows; eauto|exact Q].
      * intros (n' & V & Q). destruct (next_found _ _ _ _ _ H E V) as (m' & M). injection M as <- _. exact Q.
    + split; [rewrite (E0 o Ho); lia|]. intros (n' & V & _). destruct (next_found _ _ _ _ _ H E V) as (m' & M). injection M as <- _. destruct Hid. apply V.
Qed.
Definition ends_only {B} (K : object -> B) : Prop := forall o e, K (with_endtime o e) = K o.
Lemma ends_same B (K : object -> B) os : ends_only K -> Forall2 (fun o o' => K o' = K o) os (ends os).
Proof.
  intros HK. induction os as [|o r IH]; [constructor|]. cbn [ends]. constructor; [|exact IH].
  destruct r as [|o2 r]; [reflexivity|]. destruct (obj_id o2 =? obj_id o); [apply HK|reflexivity].
Qed.
Lemma Forall2_at A B (R : A -> B -> Prop) a b : Forall2 R a b -> forall i x y, nth_error a i = Some x -> nth_error b i = Some y -> R x y.
Proof.
  induction 1 as [|x y a b H1 H IH]; intros [|i] u v; cbn; intros H2 H3; try discriminate; [congruence|eauto].
Qed.
Definition valid_in (os : list object) (t : Z) (o : object) : Prop :=
  current_at os t o \/ (obj_timestamp o <= t /\ exists n, next_version os o n /\ obj_timestamp n = t).
Lemma run_picks B (K : object -> B) t os : ends_only K -> history os -> chronological os -> (forall x, In x os -> obj_endtime x = 0) ->
  exists sel, picked (valid_in os t) os sel /\ map K (filter (lives_between t t) (ends os)) = map K sel.
Proof.
  intros HK H C E0. apply picked_filter. apply Forall2_nth; [now rewrite ends_length|]. intros i o o' N1 N2.
  split; [|exact (Forall2_at _ _ _ _ _ (ends_same B K os HK) i o o' N1 N2)].
  apply nth_error_split in N1 as (l1 & l2 & E & <-). rewrite <- range_lives. 
  rewrite (instant_meaning os t l1 o l2 o' H C E0 E N2). unfold valid_in. split.
  - intros [Q|[Q1 Q2]]; [now left|]. right. split; [exact Q1|]. now apply (end_is_next os t l1 o l2 o' H C E0 E N2 Q1).
  - intros [Q|[Q1 Q2]]; [now left|]. right. split; [exact Q1|]. now apply (end_is_next os t l1 o l2 o' H C E0 E N2 Q1).
Qed.
Lemma ofilter_app t a b : ofilter t (a ++ b) = ofilter t a ++ ofilter t b.
Proof. apply filter_app. Qed.
Lemma ofilter_same t os : (forall o, In o os -> obj_type o = t) -> ofilter t os = os.
Proof.
  intros H. induction os as [|o r IH]; [reflexivity|]. unfold ofilter in *. cbn [filter]. rewrite (H o (or_introl eq_refl)).
  replace (otype_eqb t t) with true by (destruct t; reflexivity). f_equal. apply IH. intros; apply H; now right.
Qed.
Lemma ofilter_other t t' os : t' <> t -> (forall o, In o os -> obj_type o = t') -> ofilter t os = [].
Proof.
  intros D H. induction os as [|o r IH]; [reflexivity|]. unfold ofilter in *. cbn [filter]. rewrite (H o (or_introl eq_refl)).
  replace (otype_eqb t' t) with false by (destruct t, t'; try reflexivity; now destruct D). apply IH. intros; apply H; now right.
Qed.
Lemma ofilter_run runs g : NoDup (map fst runs) -> (forall g, In g runs -> well_typed g) -> In g runs -> ofilter (fst g) (flat_map snd runs) = snd g.
Proof.
  induction runs as [|h runs IH]; intros D W I; [contradiction|]. cbn [flat_map]. rewrite ofilter_app. inversion D as [|? ? D1 D2]; subst.
  destruct I as [->|I].
  - rewrite ofilter_same by apply (W g (or_introl eq_refl)).
    replace (ofilter (fst g) (flat_map snd runs)) with (@nil object); [apply app_nil_r|].
    clear IH D D2. induction runs as [|h runs IH]; [reflexivity|]. cbn [flat_map]. rewrite ofilter_app, <- IH.
    + rewrite (ofilter_other _ (fst h)); [reflexivity| |apply (W h); cbn; auto]. intros E. apply D1. left. exact E.
    + intros x [<-|J]; apply W; cbn; auto.
    + intros J. apply D1. now right.
  - rewrite (ofilter_other _ (fst h)); [|intros E; apply D1; rewrite E; now apply in_map|apply (W h (or_introl eq_refl))].
    cbn [app]. apply IH; auto. intros x J. apply W. now right.
Qed.
Lemma picked_ext A (P Q : A -> Prop) l l' : (forall x, In x l -> (P x <-> Q x)) -> picked P l l' -> picked Q l l'.
Proof.
  intros H R. revert H. induction R as [|x l l' p R IH|x l l' p R IH]; intros H; [constructor|apply picked_take|apply picked_skip].
  1, 3: rewrite <- (H x (or_introl eq_refl)); exact p.
  all: apply IH; intros y J; apply H; now right.
Qed.
Lemma selected_at B (K : object -> B) t r : ends_only K -> file_read r -> history_file r ->
  exists sel, picked (valid_at (objects_of r) t) (objects_of r) sel /\ map K (selected t t r) = map K sel.
Proof.
  intros HK F [D S C E0]. destruct (file_typed r F) as [W _]. pose proof (join_well_typed (fst r) W) as WJ.
  assert (OB : objects_of r = flat_map snd (join (fst r))) by (unfold objects_of; now rewrite join_objects).
  assert (G : forall g, In g (join (fst r)) -> exists sel, picked (valid_at (objects_of r) t) (snd g) sel /\
    map K (filter (lives_between t t) (ends (snd g))) = map K sel).
  { intros g I. pose proof (ofilter_run (join (fst r)) g D WJ I) as X. rewrite <- OB in X.
    destruct (run_picks B K t (snd g) HK) as (sel & P1 & P2).
    - rewrite <- X. apply S.
    - rewrite <- X. apply C.
    - intros o J. apply E0. rewrite OB. apply in_flat_map. exists g. auto.
    - exists sel. split; [|exact P2]. revert P1. apply picked_ext. intros o J. unfold valid_in, valid_at.
      replace (ofilter (obj_type o) (objects_of r)) with (snd g); [reflexivity|]. rewrite (proj2 (WJ g I) o J). now symmetry. }
  enough (Q : exists sel, picked (valid_at (objects_of r) t) (flat_map snd (join (fst r))) sel /\ map K (selected t t r) = map K sel)
    by (rewrite <- OB in Q; exact Q).
  unfold selected. clear OB D WJ. set (P := valid_at (objects_of r) t) in *. clearbody P.
  induction (join (fst r)) as [|g runs IH]; [exists []; split; [constructor|reflexivity]|].
  destruct (G g (or_introl eq_refl)) as (s1 & A1 & A2). destruct IH as (s2 & B1 & B2); [intros; apply G; now right|].
  exists (s1 ++ s2). split; [now apply picked_app|]. cbn [flat_map]. rewrite !map_app. now rewrite A2, B2.
Qed.
Lemma xml_ends ft : ends_only (XmlSpec.kept ft).
Proof. intros [[]|[]|[]] e; reflexivity. Qed.
Lemma pbf_ends c : ends_only (PbfSpec.kept c).
Proof. intros [[]|[]|[]] e; unfold PbfSpec.kept, PbfSpec.kept_with, PbfSpec.kept_attrs; cbn; reflexivity. Qed.
Lemma range_instant t r : file_read r -> history_file r ->
  exists sel, picked (valid_at (objects_of r) t) (objects_of r) sel /\
    (forall ft, map (XmlSpec.kept ft) (selected t t r) = map (XmlSpec.kept ft) sel) /\
    (forall c, map (PbfSpec.kept c) (selected t t r) = map (PbfSpec.kept c) sel).
Proof.
  intros F H. destruct (selected_at _ (fun o => with_endtime o 0) t r) as (sel & P & E); [intros [[]|[]|[]] e; reflexivity|exact F|exact H|].
  exists sel. split; [exact P|]. 
  assert (G : forall A (K : object -> A), ends_only K -> map K (selected t t r) = map K sel).
  { intros A K HK. rewrite <- (map_ext _ _ (fun o => HK o 0)), <- (map_ext (fun o => K (with_endtime o 0)) K (fun o => HK o 0)).
    rewrite <- !(map_map (fun o => with_endtime o 0) K). now rewrite E. }
  split; intros; apply G; [apply xml_ends|apply pbf_ends].
Qed.
