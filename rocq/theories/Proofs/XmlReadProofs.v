(** The XML reader delivers the objects a document describes. *)
From Coq Require Import Reals.
From Verif Require Import Base.Prelude Base.Decimal Model.Osm Model.Float Model.Time Model.Attr Model.OsmFile Model.Decfloat
  Model.Handler Model.Xml Spec.TimeSpec Spec.FloatSpec Spec.DecimalSpec Spec.AttrSpec Spec.XmlSpec
  Proofs.TimeProofs Proofs.AttrProofs Proofs.DecfloatProofs.
From Verif Require Model.Pbf.

Section XmlInd.
  Variable P : xml -> Prop.
  Hypothesis H : forall n a kids, Forall P kids -> P (Elem n a kids).
  Fixpoint xml_ind' (x : xml) : P x :=
    match x with
    | Elem n a kids => H n a kids ((fix all (l : list xml) : Forall P l :=
        match l with [] => Forall_nil P | k :: r => Forall_cons k (xml_ind' k) (all r) end) kids)
    end.
End XmlInd.

Lemma x_events_app es : forall fs st,
  x_events (es ++ fs) st = match x_events es st with (st', Ok _) => x_events fs st' | x => x end.
Proof.
  induction es as [|e es IH]; intros fs st; [reflexivity|]. cbn [app x_events].
  destruct (x_event e st) as [st' [u|x| |]]; try reflexivity. apply IH.
Qed.
Lemma x_events_app_ok es fs st st' : x_events es st = x_ok st' -> x_events (es ++ fs) st = x_events fs st'.
Proof. intros E. rewrite x_events_app, E. reflexivity. Qed.

(* ---- attributes ---- *)
Lemma attr_none k a : ~ In k (map fst a) -> attr k a = None.
Proof.
  induction a as [|[n v] r IH]; intros H; [reflexivity|]. cbn [attr]. destruct (String.eqb_spec n k) as [->|N].
  - exfalso. apply H. left. reflexivity.
  - apply IH. intros I. apply H. right. exact I.
Qed.
Lemma attr_hd k v r : attr k ((k, v) :: r) = Some v.
Proof. cbn [attr]. rewrite String.eqb_refl. reflexivity. Qed.
Lemma attr_tl n k v r : String.eqb n k = false -> attr k ((n, v) :: r) = attr k r.
Proof. intros E. cbn [attr]. rewrite E. reflexivity. Qed.
Lemma denotes_num s n : number_text s n -> atoll s = Ok n.
Proof. intros [D R]. apply atoll_denotes; assumption. Qed.
Lemma near_of s : readable_coordinate s -> exists n, double_to_fix (atof s) = Ok n /\ coordinate_near s n.
Proof.
  intros (r & D & B). destruct (coordinate_text s r D B) as (n & E & I & N). exists n. split; [exact E|]. split; [exact I|]. exists r. auto.
Qed.
Definition opt_spec {A} (o : option string) (P : string -> A -> Prop) (d x : A) : Prop :=
  match o with Some s => P s x | None => x = d end.
(** the fields after reading attributes [l] into [a] and [p] *)
Record upd (hn : bool) (l : xattrs) (a a' : attrs) (p p' : position) : Prop := {
  u_id : opt_spec (attr "id" l) number_text (o_id a) (o_id a');
  u_version : opt_spec (attr "version" l) (fun s v => exists n, number_text s n /\ v = n mod 4294967296) (o_version a) (o_version a');
  u_changeset : opt_spec (attr "changeset" l) (fun s v => exists n, number_text s n /\ v = to_i32 n) (o_changeset a) (o_changeset a');
  u_uid : opt_spec (attr "uid" l) (fun s v => exists n, number_text s n /\ v = to_i32 n) (o_uid a) (o_uid a');
  u_timestamp : opt_spec (attr "timestamp" l) (fun s t => iso_text t s) (o_timestamp a) (o_timestamp a');
  u_user : opt_spec (attr "user" l) (fun s u => u = s) (o_user a) (o_user a');
  u_visible : opt_spec (attr "visible" l) (fun s v => v = negb (String.eqb s "false")) (o_visible a) (o_visible a');
  u_endtime : o_endtime a' = o_endtime a;
  u_tags : o_tags a' = o_tags a;
  u_lon : hn = true -> opt_spec (attr "lon" l) coordinate_near (px p) (px p');
  u_lat : hn = true -> opt_spec (attr "lat" l) coordinate_near (py p) (py p') }.

Lemma if_there_tl n v k r P : if_there k ((n, v) :: r) P -> (String.eqb n k = true -> ~ In k (map fst r)) -> if_there k r P.
Proof.
  unfold if_there. cbn [attr]. destruct (String.eqb_spec n k) as [->|N]; intros H NI; [|exact H].
  rewrite (attr_none k r (NI eq_refl)). exact I.
Qed.
Lemma readable_tl n v r : readable_attrs ((n, v) :: r) -> readable_attrs r.
Proof.
  intros (ND & R). cbn [map fst] in ND. inversion ND as [|x y NI ND']; subst.
  assert (K : forall k P, if_there k ((n, v) :: r) P -> if_there k r P).
  { intros k P H. apply (if_there_tl n v); [exact H|]. intros E. apply String.eqb_eq in E. subst. exact NI. }
  destruct R as (R1 & R2 & R3 & R4 & R5 & R6 & R7 & R8). split; [exact ND'|].
  repeat split; eapply K; eassumption.
Qed.
Lemma init_attrs_spec hn l : forall a p, readable_attrs l ->
  exists a' p', init_attrs hn l a p = Ok (a', p') /\ upd hn l a a' p p'.
Proof.
  induction l as [|[k v] r IH]; intros a p R.
  { exists a, p. split; [reflexivity|]. constructor; intros; reflexivity. }
  pose proof (readable_tl k v r R) as Rr. destruct R as (ND & R). cbn [map fst] in ND. inversion ND as [|x y NI ND']; subst.
  pose proof (attr_none k r NI) as AN.
  destruct R as (R1 & R2 & R3 & R4 & R5 & R6 & R7 & R8).
  cbn [init_attrs].
  destruct (String.eqb k "lon") eqn:Elon.
  { apply String.eqb_eq in Elon; subst. destruct hn.
    - unfold if_there in R7. rewrite attr_hd in R7. destruct (near_of v R7) as (n & En & Nn). unfold pos_set_lon. rewrite En. cbn [obind].
      destruct (IH a (mkPos n (py p)) Rr) as (a' & p' & E & U). exists a', p'. split; [exact E|]. destruct U as [U1 U2 U3 U4 U5 U6 U7 U8 U9 UA UB]. rewrite AN in UA. cbn in UA, UB.
      constructor; try assumption. intros _. rewrite attr_hd. cbn. specialize (UA eq_refl). rewrite UA. exact Nn.
    - destruct (IH a p Rr) as (a' & p' & E & U). exists a', p'. split; [exact E|]. destruct U. constructor; try assumption; intros; discriminate. }
  destruct (String.eqb k "lat") eqn:Elat.
  { apply String.eqb_eq in Elat; subst. destruct hn.
    - unfold if_there in R8. rewrite attr_hd in R8. destruct (near_of v R8) as (n & En & Nn). unfold pos_set_lat. rewrite En. cbn [obind].
      destruct (IH a (mkPos (px p) n) Rr) as (a' & p' & E & U). exists a', p'. split; [exact E|]. destruct U as [U1 U2 U3 U4 U5 U6 U7 U8 U9 UA UB]. rewrite AN in UB. cbn in UA, UB.
      constructor; try assumption. intros _. rewrite attr_hd. cbn. specialize (UB eq_refl). rewrite UB. exact Nn.
    - destruct (IH a p Rr) as (a' & p' & E & U). exists a', p'. split; [exact E|]. destruct U. constructor; try assumption; intros; discriminate. }
  unfold set_attribute, string_to_osm_object_id_t, string_to_osm_version_t, string_to_osm_changeset_id_t, string_to_osm_user_id_t.
  destruct (String.eqb k "id") eqn:E1.
  { apply String.eqb_eq in E1; subst. unfold if_there in R1. rewrite attr_hd in R1. destruct R1 as (n & Rn). rewrite (denotes_num v n Rn). cbn [obind snd fst].
    destruct (IH (set_id n a) p Rr) as (a' & p' & E & U). exists a', p'. split; [exact E|]. destruct U as [U1 U2 U3 U4 U5 U6 U7 U8 U9 UA UB]. rewrite AN in U1. cbn in *.
    constructor; try assumption. cbn. rewrite U1. exact Rn. }
  destruct (String.eqb k "version") eqn:E2.
  { apply String.eqb_eq in E2; subst. unfold if_there in R2. rewrite attr_hd in R2. destruct R2 as (n & Rn). rewrite (denotes_num v n Rn). cbn [obind snd fst].
    destruct (IH (set_version (to_u32 n) a) p Rr) as (a' & p' & E & U). exists a', p'. split; [exact E|]. destruct U as [U1 U2 U3 U4 U5 U6 U7 U8 U9 UA UB]. rewrite AN in U2. cbn in *.
    constructor; try assumption. cbn. rewrite U2. exists n. split; [exact Rn|reflexivity]. }
  destruct (String.eqb k "changeset") eqn:E3.
  { apply String.eqb_eq in E3; subst. unfold if_there in R3. rewrite attr_hd in R3. destruct R3 as (n & Rn). rewrite (denotes_num v n Rn). cbn [obind snd fst].
    destruct (IH (set_changeset (to_i32 n) a) p Rr) as (a' & p' & E & U). exists a', p'. split; [exact E|]. destruct U as [U1 U2 U3 U4 U5 U6 U7 U8 U9 UA UB]. rewrite AN in U3. cbn in *.
    constructor; try assumption. cbn. rewrite U3. exists n. split; [exact Rn|reflexivity]. }
  destruct (String.eqb k "timestamp") eqn:E4.
  { apply String.eqb_eq in E4; subst. unfold if_there in R5. rewrite attr_hd in R5. destruct R5 as (t & Rt). unfold timestamp_text. rewrite (parse_iso_text t v Rt). cbn [obind snd fst].
    destruct (IH (set_timestamp t a) p Rr) as (a' & p' & E & U). exists a', p'. split; [exact E|]. destruct U as [U1 U2 U3 U4 U5 U6 U7 U8 U9 UA UB]. rewrite AN in U5. cbn in *.
    constructor; try assumption. cbn. rewrite U5. exact Rt. }
  destruct (String.eqb k "uid") eqn:E5.
  { apply String.eqb_eq in E5; subst. unfold if_there in R4. rewrite attr_hd in R4. destruct R4 as (n & Rn). rewrite (denotes_num v n Rn). cbn [obind snd fst].
    destruct (IH (set_uid (to_i32 n) a) p Rr) as (a' & p' & E & U). exists a', p'. split; [exact E|]. destruct U as [U1 U2 U3 U4 U5 U6 U7 U8 U9 UA UB]. rewrite AN in U4. cbn in *.
    constructor; try assumption. cbn. rewrite U4. exists n. split; [exact Rn|reflexivity]. }
  destruct (String.eqb k "user") eqn:E6.
  { apply String.eqb_eq in E6; subst. unfold if_there in R6. rewrite attr_hd in R6. unfold user_text, max_length_username.
    replace (slen v >? 4 * 255 + 1) with false by lia. cbn [obind snd fst].
    destruct (IH (set_user v a) p Rr) as (a' & p' & E & U). exists a', p'. split; [exact E|]. destruct U as [U1 U2 U3 U4 U5 U6 U7 U8 U9 UA UB]. rewrite AN in U6. cbn in *.
    constructor; try assumption. }
  destruct (String.eqb k "visible") eqn:E7.
  { apply String.eqb_eq in E7; subst. cbn [obind snd fst].
    destruct (IH (visible_text v a) p Rr) as (a' & p' & E & U). exists a', p'. split; [exact E|]. destruct U as [U1 U2 U3 U4 U5 U6 U7 U8 U9 UA UB]. rewrite AN in U7. unfold visible_text in *.
    destruct (String.eqb v "false") eqn:Ev; cbn in *; (constructor; try assumption); cbn; rewrite Ev; exact U7. }
  cbn [obind snd fst]. destruct (IH a p Rr) as (a' & p' & E & U). exists a', p'. split; [exact E|]. destruct U.
  constructor; rewrite ?(attr_tl _ _ _ _ E1), ?(attr_tl _ _ _ _ E2), ?(attr_tl _ _ _ _ E3), ?(attr_tl _ _ _ _ E4), ?(attr_tl _ _ _ _ E5), ?(attr_tl _ _ _ _ E6), ?(attr_tl _ _ _ _ E7), ?(attr_tl _ _ _ _ Elon), ?(attr_tl _ _ _ _ Elat); assumption.
Qed.

Lemma to_i32_mod n : in_i32 (to_i32 n) /\ (to_i32 n - n) mod 4294967296 = 0.
Proof. split; [apply to_i32_range|]. unfold to_i32. lia. Qed.
Lemma upd_described hn (del : bool) l a' p p' kids :
  upd hn l (if del then set_visible false attrs_new else attrs_new) a' p p' ->
  attrs_described del l kids (set_tags (tags_of kids) a').
Proof.
  intros U. destruct U as [U1 U2 U3 U4 U5 U6 U7 U8 U9 _ _]. unfold opt_spec in *.
  assert (D : o_id (if del then set_visible false attrs_new else attrs_new) = 0 /\
              o_version (if del then set_visible false attrs_new else attrs_new) = 0 /\
              o_changeset (if del then set_visible false attrs_new else attrs_new) = 0 /\
              o_uid (if del then set_visible false attrs_new else attrs_new) = -1 /\
              o_timestamp (if del then set_visible false attrs_new else attrs_new) = 0 /\
              o_user (if del then set_visible false attrs_new else attrs_new) = ""%string /\
              o_visible (if del then set_visible false attrs_new else attrs_new) = negb del /\
              o_endtime (if del then set_visible false attrs_new else attrs_new) = 0) by (destruct del; repeat split).
  destruct D as (D1 & D2 & D3 & D4 & D5 & D6 & D7 & D8).
  rewrite D1 in U1. rewrite D2 in U2. rewrite D3 in U3. rewrite D4 in U4. rewrite D5 in U5. rewrite D6 in U6. rewrite D7 in U7. rewrite D8 in U8.
  constructor; cbn [set_tags o_id o_version o_changeset o_timestamp o_uid o_user o_visible o_endtime o_tags]; try assumption.
  - destruct (attr "changeset" l); [|exact U3]. destruct U3 as (n & N & E). exists n. rewrite E. split; [exact N|]. apply to_i32_mod.
  - destruct (attr "uid" l); [|exact U4]. destruct U4 as (n & N & E). exists n. rewrite E. split; [exact N|]. apply to_i32_mod.
  - unfold attr_or. destruct (attr "user" l); exact U6.
  - destruct (attr "visible" l); exact U7.
  - reflexivity.
Qed.

(* ---- elements inside of objects ---- *)
Lemma tag_attrs_spec l : NoDup (map fst l) -> forall k v,
  tag_attrs l k v = (match attr "k" l with Some x => x | None => k end, match attr "v" l with Some x => x | None => v end).
Proof.
  induction l as [|[n x] r IH]; intros ND k v; [reflexivity|]. cbn [map fst] in ND. inversion ND as [|y z NI ND']; subst.
  cbn [tag_attrs attr]. rewrite (IH ND'). destruct (String.eqb_spec n "k") as [->|N1].
  - rewrite (attr_none _ _ NI). reflexivity.
  - destruct (String.eqb_spec n "v") as [->|N2]; [rewrite (attr_none _ _ NI)|]; reflexivity.
Qed.
Definition elem_tags (e : xml) : list tag := tags_of [e].
Lemma tags_of_cons e kids : tags_of (e :: kids) = elem_tags e ++ tags_of kids.
Proof. unfold elem_tags, tags_of. cbn [flat_map]. rewrite app_nil_r. reflexivity. Qed.
Lemma check_tag_spec n l o : NoDup (map fst l) ->
  check_tag n l o = with_attrs (fun a => set_tags (o_tags a ++ elem_tags (Elem n l [])) a) o.
Proof.
  intros ND. unfold check_tag, elem_tags, tags_of. cbn [flat_map]. destruct (String.eqb n "tag").
  - rewrite (tag_attrs_spec l ND). reflexivity.
  - rewrite app_nil_r. destruct o as [[[] ?]|[[] ?]|[[] ?]]; unfold with_attrs, set_tags; cbn; rewrite app_nil_r; reflexivity.
Qed.
Lemma nd_attrs_none l w : ~ In "ref"%string (map fst l) -> nd_attrs l w = Ok w.
Proof.
  revert w. induction l as [|[n x] r IH]; intros w NI; [reflexivity|]. cbn [nd_attrs]. destruct (String.eqb_spec n "ref") as [->|N].
  - exfalso. apply NI. left. reflexivity.
  - apply IH. intros I. apply NI. right. exact I.
Qed.
Lemma nd_attrs_spec l w : NoDup (map fst l) -> if_there "ref" l readable_number ->
  match attr "ref" l with
  | Some s => exists i, number_text s i /\ nd_attrs l w = Ok (add_node w i)
  | None => nd_attrs l w = Ok w
  end.
Proof.
  revert w. induction l as [|[n x] r IH]; intros w ND R; [reflexivity|]. cbn [map fst] in ND. inversion ND as [|y z NI ND']; subst.
  unfold if_there in *. cbn [attr nd_attrs] in *. destruct (String.eqb_spec n "ref") as [->|N].
  - destruct R as (i & Ri). exists i. split; [exact Ri|]. unfold string_to_osm_object_id_t. rewrite (denotes_num x i Ri). cbn [obind].
    apply nd_attrs_none. exact NI.
  - apply IH; assumption.
Qed.
Lemma member_attrs_spec l : NoDup (map fst l) -> if_there "ref" l readable_number -> forall t ref role,
  exists i, member_attrs l t ref role = Ok (match attr "type" l with Some x => first_char x | None => t end, i,
                                            match attr "role" l with Some x => x | None => role end) /\
    match attr "ref" l with Some s => exists j, number_text s j /\ i = to_u64 j | None => i = ref end.
Proof.
  induction l as [|[n x] r IH]; intros ND R t ref role.
  { exists ref. split; reflexivity. }
  cbn [map fst] in ND. inversion ND as [|y z NI ND']; subst.
  assert (Rr : if_there "ref" r readable_number).
  { apply (if_there_tl n x); [exact R|]. intros E. apply String.eqb_eq in E. subst. exact NI. }
  cbn [member_attrs attr].
  destruct (String.eqb_spec n "type") as [->|N1].
  { destruct (IH ND' Rr (first_char x) ref role) as (i & E & S). exists i. rewrite E, (attr_none _ _ NI). split; [reflexivity|exact S]. }
  destruct (String.eqb_spec n "ref") as [->|N2].
  { unfold if_there in R. rewrite attr_hd in R. destruct R as (j & Rj). unfold string_to_osm_object_id_t. rewrite (denotes_num x j Rj). cbn [obind].
    destruct (IH ND' Rr t (to_u64 j) role) as (i & E & S). exists i. split; [exact E|]. rewrite (attr_none _ _ NI) in S. exists j. split; [exact Rj|exact S]. }
  destruct (String.eqb_spec n "role") as [->|N3].
  { destruct (IH ND' Rr t ref x) as (i & E & S). exists i. rewrite E, (attr_none _ _ NI). split; [reflexivity|exact S]. }
  apply IH; assumption.
Qed.
Lemma to_i64_u64 j : in_i64 j -> to_i64 (to_u64 j) = j.
Proof. unfold in_i64, to_i64, to_u64, int64_min, int64_max. lia. Qed.

(** events of one element without elements inside *)
Lemma leaf_events n l : flat_map events_of [Elem n l []] = [EvStart n l; EvEnd n].
Proof. reflexivity. Qed.
Lemma x_set_set o o' st : x_set_cur o (x_set_cur o' st) = x_set_cur o st.
Proof. reflexivity. Qed.
Definition back (c : ctx) (o : object) (st : xstate) : xstate :=
  mkX c c (x_delete st) (x_has_node st) o (x_meta st) (x_groups st).

Lemma kids_node kids : forall st n p, x_ctx st = CtxNode -> x_cur st = ONode (mkNode n p) -> Forall (readable_kid "node") kids ->
  exists st', x_events (flat_map events_of kids) st = x_ok st' /\ x_ctx st' = CtxNode /\ x_delete st' = x_delete st /\
    (x_groups st' = x_groups st /\ x_meta st' = x_meta st) /\ x_cur st' = ONode (mkNode (set_tags (o_tags n ++ tags_of kids) n) p).
Proof.
  induction kids as [|[nm l ks] kids IH]; intros st n p C O R.
  { exists st. split; [reflexivity|]. cbn. rewrite app_nil_r. repeat split; try assumption. rewrite O. destruct n; reflexivity. }
  inversion R as [|x y R1 R2]; subst. destruct R1 as (-> & ND & _ & _).
  cbn [flat_map events_of app]. cbn [x_events x_event]. unfold start_element. rewrite C. cbn [x_ok]. cbn [x_events x_event].
  unfold end_element. cbn [x_set_cur x_child x_ctx x_cur x_last x_ok]. rewrite check_tag_spec by exact ND. rewrite O. cbn [with_attrs].
  destruct (IH (back CtxNode (ONode (mkNode (set_tags (o_tags n ++ elem_tags (Elem nm l [])) n) p)) st) (set_tags (o_tags n ++ elem_tags (Elem nm l [])) n) p) as (st' & E & C' & D' & G' & O'); [reflexivity|reflexivity|exact R2|].
  exists st'. split; [|split; [exact C'|split; [exact D'|split; [exact G'|]]]].
  - rewrite <- E. f_equal. unfold x_enter, x_set_cur, x_child, back. cbn. rewrite C. reflexivity.
  - rewrite O'. rewrite tags_of_cons. unfold set_tags. cbn [o_tags o_id o_version o_changeset o_timestamp o_endtime o_uid o_user o_visible]. rewrite app_assoc. reflexivity.
Qed.
Lemma kids_way kids : forall st a ns, x_ctx st = CtxWay -> x_cur st = OWay (mkWay a ns) -> Forall (readable_kid "way") kids ->
  exists st' ms, x_events (flat_map events_of kids) st = x_ok st' /\ x_ctx st' = CtxWay /\ x_delete st' = x_delete st /\
    (x_groups st' = x_groups st /\ x_meta st' = x_meta st) /\ x_cur st' = OWay (mkWay (set_tags (o_tags a ++ tags_of kids) a) (ns ++ ms)) /\
    Forall2 (fun s n => number_text s (wn_ref n) /\ wn_pos n = undef_pos) (refs_of kids) ms.
Proof.
  induction kids as [|[nm l ks] kids IH]; intros st a ns C O R.
  { exists st, []. split; [reflexivity|]. cbn. rewrite !app_nil_r. repeat split; try assumption; [|constructor]. rewrite O. destruct a; reflexivity. }
  inversion R as [|x y R1 R2]; subst. destruct R1 as (-> & ND & RW & _). specialize (RW eq_refl).
  cbn [flat_map events_of app]. cbn [x_events x_event]. unfold start_element. rewrite C. unfold start_in_way. cbn [x_child x_cur].
  destruct (String.eqb_spec nm "nd") as [->|N].
  - specialize (RW eq_refl). rewrite O. pose proof (nd_attrs_spec l (mkWay a ns) ND RW) as NS.
    assert (K : exists ms1, nd_attrs l (mkWay a ns) = Ok (mkWay a (ns ++ ms1)) /\
              Forall2 (fun s n => number_text s (wn_ref n) /\ wn_pos n = undef_pos) (match attr "ref" l with Some s => [s] | None => [] end) ms1).
    { destruct (attr "ref" l) as [s|].
      - destruct NS as (i & Ni & E). exists [mkWN i undef_pos]. split; [exact E|]. repeat constructor; [exact (proj1 Ni)|exact (proj1 (proj2 Ni))|exact (proj2 (proj2 Ni))].
      - exists []. rewrite app_nil_r. split; [exact NS|constructor]. }
    destruct K as (ms1 & E1 & F1). rewrite E1. cbn [x_try x_ok]. cbn [x_events x_event]. unfold end_element. cbn [x_set_cur x_child x_ctx x_last x_ok].
    destruct (IH (back CtxWay (OWay (mkWay a (ns ++ ms1))) st) a (ns ++ ms1)) as (st' & ms & E & C' & D' & G' & O' & F'); [reflexivity|reflexivity|exact R2|].
    exists st', (ms1 ++ ms). split; [|split; [exact C'|split; [exact D'|split; [exact G'|split]]]].
    + rewrite <- E. f_equal. unfold x_enter, x_set_cur, x_child, back. cbn. rewrite C. reflexivity.
    + rewrite O'. rewrite tags_of_cons. change (elem_tags (Elem "nd" l [])) with (@nil tag). cbn [app]. rewrite <- app_assoc. reflexivity.
    + change (refs_of (Elem "nd" l [] :: kids)) with ((match attr "ref" l with Some s => [s] | None => [] end) ++ refs_of kids).
      apply Forall2_app; assumption.
  - cbn [x_ok x_events x_event]. unfold end_element. cbn [x_set_cur x_child x_ctx x_cur x_last x_ok]. rewrite check_tag_spec by exact ND. rewrite O. cbn [with_attrs w_attrs w_nodes].
    destruct (IH (back CtxWay (OWay (mkWay (set_tags (o_tags a ++ elem_tags (Elem nm l [])) a) ns)) st) (set_tags (o_tags a ++ elem_tags (Elem nm l [])) a) ns) as (st' & ms & E & C' & D' & G' & O' & F'); [reflexivity|reflexivity|exact R2|].
    exists st', ms. split; [|split; [exact C'|split; [exact D'|split; [exact G'|split]]]].
    + rewrite <- E. f_equal. unfold x_enter, x_set_cur, x_child, back. cbn. rewrite C. reflexivity.
    + rewrite O'. rewrite tags_of_cons. unfold set_tags. cbn [o_tags o_id o_version o_changeset o_timestamp o_endtime o_uid o_user o_visible]. rewrite app_assoc. reflexivity.
    + unfold refs_of. cbn [flat_map]. apply String.eqb_neq in N. rewrite N. exact F'.
Qed.
Lemma kids_relation kids : forall st a ms, x_ctx st = CtxRelation -> x_cur st = ORel (mkRelation a ms) -> Forall (readable_kid "relation") kids ->
  exists st' ms', x_events (flat_map events_of kids) st = x_ok st' /\ x_ctx st' = CtxRelation /\ x_delete st' = x_delete st /\
    (x_groups st' = x_groups st /\ x_meta st' = x_meta st) /\ x_cur st' = ORel (mkRelation (set_tags (o_tags a ++ tags_of kids) a) (ms ++ ms')) /\
    Forall2 member_described (members_of kids) ms'.
Proof.
  induction kids as [|[nm l ks] kids IH]; intros st a ms C O R.
  { exists st, []. split; [reflexivity|]. cbn. rewrite !app_nil_r. repeat split; try assumption; [|constructor]. rewrite O. destruct a; reflexivity. }
  inversion R as [|x y R1 R2]; subst. destruct R1 as (-> & ND & _ & RW). specialize (RW eq_refl).
  cbn [flat_map events_of app]. cbn [x_events x_event]. unfold start_element. rewrite C. unfold start_in_relation. cbn [x_child x_cur].
  destruct (String.eqb_spec nm "member") as [->|N].
  - destruct (RW eq_refl) as [RR RL]. rewrite O. destruct (member_attrs_spec l ND RR "x" 0 "") as (i & Ei & Si). rewrite Ei. cbn [x_try].
    cbn [r_members r_attrs]. unfold add_member.
    assert (LR : slen (match attr "role" l with Some x => x | None => ""%string end) <= 1021).
    { unfold if_there in RL. destruct (attr "role" l); [exact RL|]. cbn. lia. }
    replace (slen (match attr "role" l with Some x => x | None => ""%string end) >? max_length_role) with false by (unfold max_length_role; lia).
    cbn [x_ok x_events x_event]. unfold end_element. cbn [x_set_cur x_child x_ctx x_cur x_last x_ok].
    set (m := mkMember (match attr "type" l with Some x => first_char x | None => "x"%char end) (to_i64 i) (match attr "role" l with Some x => x | None => ""%string end)).
    destruct (IH (back CtxRelation (ORel (mkRelation a (ms ++ [m]))) st) a (ms ++ [m])) as (st' & ms' & E & C' & D' & G' & O' & F'); [reflexivity|reflexivity|exact R2|].
    exists st', (m :: ms'). split; [|split; [exact C'|split; [exact D'|split; [exact G'|split]]]].
    + rewrite <- E. f_equal. unfold x_enter, x_set_cur, x_child, back. cbn. rewrite C. reflexivity.
    + rewrite O'. rewrite tags_of_cons. change (elem_tags (Elem "member" l [])) with (@nil tag). cbn [app]. rewrite <- app_assoc. reflexivity.
    + change (members_of (Elem "member" l [] :: kids)) with (l :: members_of kids). constructor; [|exact F'].
      unfold member_described, m, attr_or. cbn [m_type m_ref m_role]. split; [destruct (attr "type" l); reflexivity|]. split; [|destruct (attr "role" l); reflexivity].
      destruct (attr "ref" l) as [s|].
      * destruct Si as (j & Nj & ->). destruct Nj as [Dj Rj]. rewrite to_i64_u64 by exact Rj. split; assumption.
      * rewrite Si. reflexivity.
  - cbn [x_ok x_events x_event]. unfold end_element. cbn [x_set_cur x_child x_ctx x_cur x_last x_ok]. rewrite check_tag_spec by exact ND. rewrite O. cbn [with_attrs r_attrs r_members].
    destruct (IH (back CtxRelation (ORel (mkRelation (set_tags (o_tags a ++ elem_tags (Elem nm l [])) a) ms)) st) (set_tags (o_tags a ++ elem_tags (Elem nm l [])) a) ms) as (st' & ms' & E & C' & D' & G' & O' & F'); [reflexivity|reflexivity|exact R2|].
    exists st', ms'. split; [|split; [exact C'|split; [exact D'|split; [exact G'|split]]]].
    + rewrite <- E. f_equal. unfold x_enter, x_set_cur, x_child, back. cbn. rewrite C. reflexivity.
    + rewrite O'. rewrite tags_of_cons. unfold set_tags. cbn [o_tags o_id o_version o_changeset o_timestamp o_endtime o_uid o_user o_visible]. rewrite app_assoc. reflexivity.
    + unfold members_of. cbn [flat_map]. apply String.eqb_neq in N. rewrite N. exact F'.
Qed.

(* ---- objects ---- *)
Lemma object_read n a kids st : x_ctx st = CtxTop -> is_object_name n = true -> readable_attrs a -> Forall (readable_kid n) kids ->
  exists st' o, x_events (events_of (Elem n a kids)) st = x_ok st' /\ x_ctx st' = CtxTop /\ x_delete st' = x_delete st /\
    x_groups st' = x_groups st ++ announced [o] /\ x_meta st' = x_meta st /\ described (x_delete st) (Elem n a kids) o.
Proof.
  intros C N RA RK. cbn [events_of]. cbn [x_events x_event]. unfold start_element. rewrite C. unfold start_top.
  unfold is_object_name in N.
  destruct (String.eqb_spec n "node") as [->|N1].
  { unfold init_object. destruct (init_attrs_spec true a (if x_delete st then set_visible false attrs_new else attrs_new) undef_pos RA) as (a' & p' & E & U).
    cbn [x_node_there x_emit x_delete]. rewrite E. cbn [x_try x_ok fst snd].
    set (st1 := x_enter CtxNode (x_set_cur (ONode (mkNode a' p')) (x_node_there (x_emit (NODE, []) st)))).
    destruct (kids_node kids st1 a' p') as (st' & Ek & Ck & Dk & (Gk & Mk) & Ok); [reflexivity|reflexivity|exact RK|].
    fold st1. rewrite (x_events_app_ok _ _ _ _ Ek). cbn [x_events x_event]. unfold end_element. rewrite Ck, Ok. cbn [x_ok].
    eexists. exists (ONode (mkNode (set_tags (tags_of kids) a') p')).
    assert (T : o_tags a' = []). { rewrite (u_tags _ _ _ _ _ _ U). destruct (x_delete st); reflexivity. }
    split; [reflexivity|]. split; [reflexivity|]. split; [exact Dk|]. split.
    - cbn [x_enter x_emit x_groups]. rewrite Gk. cbn. rewrite <- app_assoc, T. reflexivity.
    - split; [exact Mk|]. cbn [described n_attrs n_pos]. split; [reflexivity|]. split; [exact (upd_described _ _ _ _ _ _ kids U)|].
      unfold coordinate_described. split.
      + pose proof (u_lon _ _ _ _ _ _ U eq_refl) as L. unfold opt_spec in L. destruct (attr "lon" a); exact L.
      + pose proof (u_lat _ _ _ _ _ _ U eq_refl) as L. unfold opt_spec in L. destruct (attr "lat" a); exact L. }
  destruct (String.eqb_spec n "way") as [->|N2].
  { unfold init_object. destruct (init_attrs_spec (x_has_node st) a (if x_delete st then set_visible false attrs_new else attrs_new) undef_pos RA) as (a' & p' & E & U).
    cbn [x_emit x_delete x_has_node]. rewrite E. cbn [x_try x_ok fst snd].
    set (st1 := x_enter CtxWay (x_set_cur (OWay (mkWay a' [])) (x_emit (WAY, []) st))).
    destruct (kids_way kids st1 a' []) as (st' & ms & Ek & Ck & Dk & (Gk & Mk) & Ok & Fk); [reflexivity|reflexivity|exact RK|].
    fold st1. rewrite (x_events_app_ok _ _ _ _ Ek). cbn [x_events x_event]. unfold end_element. rewrite Ck, Ok. cbn [x_ok].
    eexists. exists (OWay (mkWay (set_tags (tags_of kids) a') ms)).
    assert (T : o_tags a' = []). { rewrite (u_tags _ _ _ _ _ _ U). destruct (x_delete st); reflexivity. }
    split; [reflexivity|]. split; [reflexivity|]. split; [exact Dk|]. split.
    - cbn [x_enter x_emit x_groups]. rewrite Gk. cbn. rewrite <- app_assoc, T. reflexivity.
    - split; [exact Mk|]. cbn [described w_attrs w_nodes]. split; [reflexivity|]. split; [exact (upd_described _ _ _ _ _ _ kids U)|exact Fk]. }
  destruct (String.eqb_spec n "relation") as [->|N3]; [|discriminate].
  { unfold init_object. destruct (init_attrs_spec (x_has_node st) a (if x_delete st then set_visible false attrs_new else attrs_new) undef_pos RA) as (a' & p' & E & U).
    cbn [x_emit x_delete x_has_node]. rewrite E. cbn [x_try x_ok fst snd].
    set (st1 := x_enter CtxRelation (x_set_cur (ORel (mkRelation a' [])) (x_emit (RELATION, []) st))).
    destruct (kids_relation kids st1 a' []) as (st' & ms & Ek & Ck & Dk & (Gk & Mk) & Ok & Fk); [reflexivity|reflexivity|exact RK|].
    fold st1. rewrite (x_events_app_ok _ _ _ _ Ek). cbn [x_events x_event]. unfold end_element. rewrite Ck, Ok. cbn [x_ok].
    eexists. exists (ORel (mkRelation (set_tags (tags_of kids) a') ms)).
    assert (T : o_tags a' = []). { rewrite (u_tags _ _ _ _ _ _ U). destruct (x_delete st); reflexivity. }
    split; [reflexivity|]. split; [reflexivity|]. split; [exact Dk|]. split.
    - cbn [x_enter x_emit x_groups]. rewrite Gk. cbn. rewrite <- app_assoc, T. reflexivity.
    - split; [exact Mk|]. cbn [described r_attrs r_members]. split; [reflexivity|]. split; [exact (upd_described _ _ _ _ _ _ kids U)|exact Fk]. }
Qed.

(* ---- bounds ---- *)
Lemma bounds_attrs_spec l : readable_bounds l -> forall mi ma, exists mi' ma', bounds_attrs l mi ma = Ok (mi', ma') /\
  opt_spec (attr "minlon" l) coordinate_near (px mi) (px mi') /\ opt_spec (attr "minlat" l) coordinate_near (py mi) (py mi') /\
  opt_spec (attr "maxlon" l) coordinate_near (px ma) (px ma') /\ opt_spec (attr "maxlat" l) coordinate_near (py ma) (py ma').
Proof.
  induction l as [|[n x] r IH]; intros R mi ma; [exists mi, ma; repeat split; reflexivity|].
  assert (Rr : readable_bounds r /\ ~ In n (map fst r)).
  { destruct R as (ND & R). cbn [map fst] in ND. inversion ND as [|y z NI ND']; subst.
    assert (K : forall k P, if_there k ((n, x) :: r) P -> if_there k r P).
    { intros k P H. apply (if_there_tl n x); [exact H|]. intros E. apply String.eqb_eq in E. subst. exact NI. }
    destruct R as (R1 & R2 & R3 & R4). split; [|exact NI]. split; [exact ND'|]. repeat split; eapply K; eassumption. }
  destruct Rr as [Rr NI]. pose proof (attr_none _ _ NI) as AN.
  destruct R as (_ & R1 & R2 & R3 & R4). unfold if_there in *. cbn [attr bounds_attrs] in *. unfold pos_set_lon, pos_set_lat.
  destruct (String.eqb_spec n "minlon") as [->|N1].
  { destruct (near_of x R1) as (k & -> & Nk). cbn [obind]. destruct (IH Rr (mkPos k (py mi)) ma) as (mi' & ma' & E & U1 & U2 & U3 & U4). exists mi', ma'. split; [exact E|].
    rewrite AN in U1. cbn in *. rewrite U1. auto. }
  destruct (String.eqb_spec n "minlat") as [->|N2].
  { destruct (near_of x R2) as (k & -> & Nk). cbn [obind]. destruct (IH Rr (mkPos (px mi) k) ma) as (mi' & ma' & E & U1 & U2 & U3 & U4). exists mi', ma'. split; [exact E|].
    rewrite AN in U2. cbn in *. rewrite U2. auto. }
  destruct (String.eqb_spec n "maxlon") as [->|N3].
  { destruct (near_of x R3) as (k & -> & Nk). cbn [obind]. destruct (IH Rr mi (mkPos k (py ma))) as (mi' & ma' & E & U1 & U2 & U3 & U4). exists mi', ma'. split; [exact E|].
    rewrite AN in U3. cbn in *. rewrite U3. auto. }
  destruct (String.eqb_spec n "maxlat") as [->|N4].
  { destruct (near_of x R4) as (k & -> & Nk). cbn [obind]. destruct (IH Rr mi (mkPos (px ma) k)) as (mi' & ma' & E & U1 & U2 & U3 & U4). exists mi', ma'. split; [exact E|].
    rewrite AN in U4. cbn in *. rewrite U4. auto. }
  apply (IH Rr).
Qed.
Lemma bounds_corners l : readable_bounds l -> exists c, bounds_attrs l undef_pos undef_pos = Ok c /\ corners_described l c.
Proof.
  intros R. destruct (bounds_attrs_spec l R undef_pos undef_pos) as (mi & ma & E & U1 & U2 & U3 & U4). exists (mi, ma). split; [exact E|].
  unfold corners_described, coordinate_described. cbn [fst snd]. unfold opt_spec in *.
  repeat split; [destruct (attr "minlon" l)|destruct (attr "minlat" l)|destruct (attr "maxlon" l)|destruct (attr "maxlat" l)]; assumption.
Qed.

(* ---- whole documents ---- *)
Definition extended (m : Pbf.meta) (cs : list (position * position)) : Pbf.meta :=
  Pbf.mkMeta (Pbf.mt_generator m) (fold_left bounds_extend (flat_map (fun c => [fst c; snd c]) cs) (Pbf.mt_bounds m)).
Lemma extended_nil m : extended m [] = m.
Proof. destruct m; reflexivity. Qed.
Lemma extended_app m a b : extended m (a ++ b) = extended (extended m a) b.
Proof. unfold extended. rewrite flat_map_app, fold_left_app. reflexivity. Qed.
Definition reads (del : bool) (e : xml) : Prop := forall st, x_ctx st = CtxTop -> x_delete st = del -> readable del e ->
  exists st' os cs, x_events (events_of e) st = x_ok st' /\ x_ctx st' = CtxTop /\ x_delete st' = del /\
    x_groups st' = x_groups st ++ announced os /\ Forall2 (fun de o => described (fst de) (snd de) o) (objects_in del e) os /\
    x_meta st' = extended (x_meta st) cs /\ Forall2 corners_described (bounds_in e) cs.
Lemma announced_app a b : announced (a ++ b) = announced a ++ announced b.
Proof. apply flat_map_app. Qed.
Lemma list_read del kids : Forall (reads del) kids -> forall st, x_ctx st = CtxTop -> x_delete st = del -> Forall (readable del) kids ->
  exists st' os cs, x_events (flat_map events_of kids) st = x_ok st' /\ x_ctx st' = CtxTop /\ x_delete st' = del /\
    x_groups st' = x_groups st ++ announced os /\ Forall2 (fun de o => described (fst de) (snd de) o) (flat_map (objects_in del) kids) os /\
    x_meta st' = extended (x_meta st) cs /\ Forall2 corners_described (flat_map bounds_in kids) cs.
Proof.
  induction kids as [|k kids IH]; intros F st C D R.
  { exists st, [], []. cbn [flat_map announced]. rewrite app_nil_r, extended_nil. repeat split; try assumption; constructor. }
  inversion F as [|x y F1 F2]; subst. inversion R as [|x y R1 R2]; subst.
  destruct (F1 st C eq_refl R1) as (st1 & os1 & cs1 & E1 & C1 & D1 & G1 & O1 & M1 & B1).
  destruct (IH F2 st1 C1 D1 R2) as (st2 & os2 & cs2 & E2 & C2 & D2 & G2 & O2 & M2 & B2).
  exists st2, (os1 ++ os2), (cs1 ++ cs2). cbn [flat_map]. rewrite (x_events_app_ok _ _ _ _ E1). split; [exact E2|]. split; [exact C2|]. split; [exact D2|].
  split; [rewrite G2, G1, announced_app, app_assoc; reflexivity|]. split; [apply Forall2_app; assumption|].
  split; [rewrite M2, M1, extended_app; reflexivity|]. apply Forall2_app; assumption.
Qed.
Lemma readable_all del n a kids : readable del (Elem n a kids) -> is_object_name n = false ->
  (n = "bounds"%string -> readable_bounds a) /\ n <> "osm"%string /\ n <> "osmChange"%string /\ (del = true -> n <> "delete"%string) /\
  Forall (readable (del || String.eqb n "delete")) kids.
Proof.
  cbn [readable]. intros R N. rewrite N in R. destruct R as (R1 & R2 & R3 & R4 & R5). do 4 (split; [assumption|]).
  induction kids as [|k r IH]; constructor; [exact (proj1 R5)|]. apply IH. exact (proj2 R5).
Qed.
Lemma elem_reads e : forall del, reads del e.
Proof.
  induction e as [n a kids IH] using xml_ind'. intros del st C D R.
  destruct (is_object_name n) eqn:N.
  - assert (R' := R). cbn [readable] in R'. rewrite N in R'. destruct R' as [RA RK].
    destruct (object_read n a kids st C N RA RK) as (st' & o & E & C' & D' & G & M & O). exists st', [o], [].
    split; [exact E|]. split; [exact C'|]. split; [congruence|]. split; [exact G|]. cbn [objects_in bounds_in]. rewrite N. split; [constructor; [|constructor]; cbn [fst snd]; rewrite <- D; exact O|].
    rewrite extended_nil. split; [exact M|constructor].
  - destruct (readable_all del n a kids R N) as (RB & R1 & R2 & R3 & R4).
    set (d' := del || String.eqb n "delete") in *.
    assert (S1 : exists st1 cs1, start_element n a st = x_ok st1 /\ x_ctx st1 = CtxTop /\ x_delete st1 = d' /\ x_groups st1 = x_groups st /\
      x_meta st1 = extended (x_meta st) cs1 /\ Forall2 corners_described (if String.eqb n "bounds" then [a] else []) cs1).
    { unfold start_element. rewrite C. unfold start_top. unfold is_object_name in N.
      destruct (String.eqb n "node"); [discriminate|]. destruct (String.eqb n "way"); [discriminate|]. destruct (String.eqb n "relation"); [discriminate|].
      destruct (String.eqb_spec n "bounds") as [EB|NB].
      - destruct (bounds_corners a (RB EB)) as (c & -> & Hc). cbn [x_try]. eexists. exists [c]. split; [reflexivity|].
        cbn [x_ctx x_delete x_groups x_meta x_set_meta]. split; [exact C|]. split; [|split; [reflexivity|split; [reflexivity|]]].
        + unfold d'. rewrite EB. cbn. rewrite orb_false_r. exact D.
        + repeat constructor; apply Hc.
      - unfold d'. destruct (String.eqb n "delete") eqn:ED; eexists; exists []; (split; [reflexivity|]); rewrite extended_nil.
        + cbn [x_ctx x_delete x_groups x_meta x_set_delete]. rewrite orb_true_r. repeat split; try assumption; constructor.
        + rewrite orb_false_r. repeat split; try assumption; constructor. }
    destruct S1 as (st1 & cs1 & E1 & C1 & D1 & G1 & M1 & B1).
    assert (F : Forall (reads d') kids) by (eapply Forall_impl; [|exact IH]; intros x Hx; apply Hx).
    destruct (list_read d' kids F st1 C1 D1 R4) as (st2 & os & cs2 & E2 & C2 & D2 & G2 & O2 & M2 & B2).
    assert (E3 : exists st3, end_element n st2 = x_ok st3 /\ x_ctx st3 = CtxTop /\ x_delete st3 = del /\ x_groups st3 = x_groups st2 /\ x_meta st3 = x_meta st2).
    { unfold end_element. rewrite C2. unfold is_root_name. apply String.eqb_neq in R1. apply String.eqb_neq in R2. rewrite R1, R2. cbn [orb].
      destruct (String.eqb n "delete") eqn:ED.
      - eexists. split; [reflexivity|]. cbn [x_ctx x_delete x_groups x_set_delete]. split; [exact C2|]. split; [|split; reflexivity].
        destruct del; [|reflexivity]. exfalso. apply (R3 eq_refl). apply String.eqb_eq. exact ED.
      - eexists. split; [reflexivity|]. split; [exact C2|]. split; [|split; reflexivity]. rewrite D2. unfold d'. try rewrite ED. apply orb_false_r. }
    destruct E3 as (st3 & E3 & C3 & D3 & G3 & M3).
    exists st3, os, (cs1 ++ cs2). split.
    + cbn [events_of]. cbn [x_events x_event]. rewrite E1. cbn [x_ok]. rewrite (x_events_app_ok _ _ _ _ E2). cbn [x_events x_event]. rewrite E3. reflexivity.
    + split; [exact C3|]. split; [exact D3|]. split; [congruence|]. cbn [objects_in bounds_in]. rewrite N. split; [exact O2|].
      split; [rewrite M3, M2, M1, extended_app; reflexivity|]. apply Forall2_app; assumption.
Qed.
Lemma root_attrs_spec l m : NoDup (map fst l) -> if_there "version" l (fun s => s = "0.6"%string) ->
  root_attrs l m = Ok (Pbf.mkMeta (match attr "generator" l with Some g => g | None => Pbf.mt_generator m end) (Pbf.mt_bounds m)).
Proof.
  revert m. induction l as [|[n x] r IH]; intros m ND R; [destruct m; reflexivity|]. cbn [map fst] in ND. inversion ND as [|y z NI ND']; subst.
  assert (Rr : if_there "version" r (fun s => s = "0.6"%string)).
  { apply (if_there_tl n x); [exact R|]. intros E. apply String.eqb_eq in E. subst. exact NI. }
  cbn [root_attrs attr]. destruct (String.eqb_spec n "version") as [->|N].
  - unfold if_there in R. rewrite attr_hd in R. subst x. change (String.eqb "0.6" "0.6") with true. cbn [String.eqb]. rewrite (IH m ND' Rr). reflexivity.
  - destruct (String.eqb_spec n "generator") as [->|N2]; rewrite (IH _ ND' Rr); [|reflexivity]. rewrite (attr_none _ _ NI). reflexivity.
Qed.
Lemma document_read root a kids : readable_document root a kids ->
  exists st os, x_events (events_of (Elem root a kids)) x_new = (st, Ok tt) /\ x_groups st = announced os /\
    Forall2 (fun de o => described (fst de) (snd de) o) (flat_map (objects_in false) kids) os /\ meta_described root a kids (x_meta st).
Proof.
  intros [RR RK]. cbn [events_of]. cbn [x_events x_event]. 
  assert (S1 : exists st1, start_element root a x_new = x_ok st1 /\ x_ctx st1 = CtxTop /\ x_delete st1 = false /\ x_groups st1 = [] /\
    x_meta st1 = Pbf.mkMeta (if is_root_name root then attr_or "" "generator" a else ""%string) bounds_new).
  { unfold start_element. change (x_ctx x_new) with CtxRoot. destruct (is_root_name root) eqn:RN.
    - unfold is_root_name in RN. apply orb_true_iff in RN. rewrite !String.eqb_eq in RN. destruct (RR RN) as [ND RV].
      rewrite (root_attrs_spec a (x_meta x_new) ND RV). cbn [x_try]. eexists. split; [reflexivity|]. repeat split.
    - eexists. split; [reflexivity|]. repeat split. }
  destruct S1 as (st1 & E1 & C1 & D1 & G1 & M1). rewrite E1. cbn [x_ok].
  assert (F : Forall (reads false) kids) by (apply Forall_forall; intros x _; apply elem_reads).
  destruct (list_read false kids F st1 C1 D1 RK) as (st2 & os & cs & E2 & C2 & D2 & G2 & O2 & M2 & B2).
  rewrite (x_events_app_ok _ _ _ _ E2). cbn [x_events x_event]. unfold end_element. rewrite C2.
  rewrite G1 in G2. cbn [app] in G2. rewrite M1 in M2.
  assert (M : meta_described root a kids (x_meta st2)) by (rewrite M2; split; [reflexivity|exists cs; split; [exact B2|reflexivity]]).
  destruct (is_root_name root); [|destruct (String.eqb root "delete")]; (eexists; exists os; split; [reflexivity|split; [exact G2|split; [exact O2|exact M]]]).
Qed.

(* ---- pieces ---- *)
Lemma parse_loop_feeds {E} (expat : E -> string -> bool -> E * list event * bool) bufs : forall e st es ok,
  ~ In ""%string bufs -> feeds expat e bufs = (es, ok) ->
  parse_loop expat (map Some bufs) e st =
    match x_events es st with (st', Ok _) => (st', if ok then Ok tt else Throw ERuntime) | x => x end.
Proof.
  induction bufs as [|b bufs IH]; intros e st es ok NI F.
  - cbn [feeds map parse_loop] in *. unfold parse_buffer. destruct (expat e ""%string true) as [[e' evs] o]. injection F as <- <-.
    destruct (x_events evs st) as [st' [u|x| |]]; reflexivity.
  - cbn [feeds map parse_loop] in *. destruct b as [|c b]; [exfalso; apply NI; left; reflexivity|].
    unfold parse_buffer. destruct (expat e (String c b) false) as [[e' evs] o]. destruct o.
    + destruct (feeds expat e' bufs) as [evs' ok'] eqn:F'. injection F as <- <-. rewrite x_events_app.
      destruct (x_events evs st) as [st' [u|x| |]]; try reflexivity. apply IH; [|exact F']. intros I. apply NI. right. exact I.
    + injection F as <- <-. destruct (x_events evs st) as [st' [u|x| |]]; reflexivity.
Qed.
Lemma read_xml_parses {E} (expat : E -> string -> bool -> E * list event * bool) e text es bufs :
  parses expat e text es -> joined bufs = text -> ~ In ""%string bufs ->
  read_xml expat e (map Some bufs) = x_events es x_new.
Proof.
  intros P J NI. unfold read_xml. rewrite (parse_loop_feeds expat bufs e x_new es true NI (P bufs J NI)).
  destruct (x_events es x_new) as [st' [[]|x| |]]; reflexivity.
Qed.
Lemma read_error {E} (expat : E -> string -> bool -> E * list event * bool) bufs rest : forall e st,
  ~ In ""%string bufs -> snd (parse_loop expat (map Some bufs ++ None :: rest) e st) <> Ok tt.
Proof.
  induction bufs as [|b bufs IH]; intros e st NI.
  - cbn. discriminate.
  - cbn [map app parse_loop]. destruct b as [|c b]; [exfalso; apply NI; left; reflexivity|].
    destruct (parse_buffer expat e (String c b) false st) as [e' [st' [u|x| |]]]; try discriminate. apply IH. intros I. apply NI. right. exact I.
Qed.
