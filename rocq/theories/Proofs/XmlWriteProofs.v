(** The XML writer: the elements it writes describe the objects. *)
From Coq Require Import Reals Lra.
From Verif Require Import Base.Prelude Base.Decimal Model.Osm Model.Float Model.Time Model.Attr Model.OsmFile Model.Decfloat
  Model.Handler Model.Xml Spec.TimeSpec Spec.FloatSpec Spec.DecimalSpec Spec.AttrSpec Spec.XmlSpec
  Proofs.TimeProofs Proofs.AttrProofs Proofs.FloatProofs Proofs.DecfloatProofs Proofs.XmlReadProofs.
From Verif Require Model.Pbf.

(* ---- numbers ---- *)
Lemma print_denotes n : denotes (print_Z n) n.
Proof.
  unfold print_Z. destruct (Z.ltb_spec n 0).
  - pose proof (den_minus "" (print_nonneg (- n)) "" (- n) I (print_number (- n) ltac:(lia)) I) as H0.
    rewrite Z.opp_involutive in H0. rewrite sapp_nil_r in H0. exact H0.
  - pose proof (den_pos "" (print_nonneg n) "" n I (print_number n H) I) as H0. rewrite sapp_nil_r in H0. exact H0.
Qed.
Lemma print_number_text n : in_i64 n -> number_text (print_Z n) n.
Proof. intros H. split; [apply print_denotes|exact H]. Qed.
Lemma number_text_unique s n m : number_text s n -> number_text s m -> n = m.
Proof. intros A B. apply denotes_num in A. apply denotes_num in B. congruence. Qed.
Lemma iso_unique s t t' : iso_text t s -> iso_text t' s -> t = t'.
Proof. intros A B. apply parse_iso_text in A. apply parse_iso_text in B. congruence. Qed.

(* ---- coordinates ---- *)
Lemma coord_decimal x : in_i32 x -> decimal (printf_f 7 (fix_to_double x)) (IZR x * precision).
Proof.
  intros Hx. rewrite (printf_coord x Hx).
  pose proof (decimal_intro _ _ _ _ _ _ (print_point_mantissa 7 (x <? 0) (Z.abs x) ltac:(lia)) exponent_none) as D. rewrite sapp_nil_r in D.
  replace (IZR x * precision)%R with (IZR (if x <? 0 then - Z.abs x else Z.abs x) * powerRZ 10 (0 - Z.of_nat 7))%R; [exact D|].
  unfold precision. f_equal.
  - f_equal. destruct (Z.ltb_spec x 0); lia.
  - exact (powerRZ_neg 7 ltac:(lia)).
Qed.
Lemma coord_readable x : in_i32 x -> readable_coordinate (printf_f 7 (fix_to_double x)).
Proof.
  intros Hx. exists (IZR x * precision)%R. split; [apply coord_decimal; exact Hx|]. unfold coordinate_range, precision, in_i32, int32_min, int32_max in *.
  destruct Hx as [A B]. apply IZR_le in A. apply IZR_le in B. lra.
Qed.
Lemma near_unique x n : in_i32 x -> coordinate_near (printf_f 7 (fix_to_double x)) n -> n = x.
Proof.
  intros Hx (_ & r & D & N). rewrite <- (decimal_unique _ _ _ (coord_decimal x Hx) D) in N. unfold precision in N.
  replace (IZR n * / 10000000 - IZR x * / 10000000)%R with (IZR (n - x) * / 10000000)%R in N by (rewrite minus_IZR; ring).
  rewrite Rabs_mult, (Rabs_pos_eq (/ 10000000)) in N by lra. rewrite <- abs_IZR in N.
  assert (IZR (Z.abs (n - x)) < IZR 1)%R as L by lra. apply lt_IZR in L. lia.
Qed.

(* ---- the written elements ---- *)
Definition ts_text (a : attrs) : string := match to_iso (o_timestamp a) with Ok s => s | _ => ""%string end.
Definition meta_attrs (ft : ftype) (a : attrs) : xattrs :=
  [("id", print_Z (o_id a))]%string ++
  (if o_version a =? 0 then [] else [("version"%string, print_Z (to_i32 (o_version a)))]) ++
  (if o_timestamp a =? 0 then [] else [("timestamp"%string, ts_text a)]) ++
  (if o_uid a >? 0 then [("uid"%string, print_Z (o_uid a)); ("user"%string, o_user a)] else []) ++
  (if o_changeset a =? 0 then [] else [("changeset"%string, print_Z (o_changeset a))]) ++
  (if ft_multiple ft && negb (Pbf.ft_eqb ft FtChange) then [("visible", if o_visible a then "true" else "false")]%string else []).
Definition pos_attrs (p : position) : xattrs :=
  if pos_defined p then [("lat", printf_f 7 (pos_lat p)); ("lon", printf_f 7 (pos_lon p))]%string else [].
Definition tag_elems (ts : tag_list) : list xml := map (fun t => Elem "tag" [("k", tkey t); ("v", tvalue t)]%string []) ts.
Definition nd_elem (n : way_node) : xml := Elem "nd" [("ref"%string, print_Z (wn_ref n))] [].
Definition member_elem (m : member) : xml :=
  Elem "member" [("type", type_name (m_type m)); ("ref", print_Z (m_ref m)); ("role", m_role m)]%string [].
Definition object_elem (ft : ftype) (o : object) : xml :=
  match o with
  | ONode n => Elem "node" (meta_attrs ft (n_attrs n) ++ pos_attrs (n_pos n)) (tag_elems (o_tags (n_attrs n)))
  | OWay w => Elem "way" (meta_attrs ft (w_attrs w)) (map nd_elem (w_nodes w) ++ tag_elems (o_tags (w_attrs w)))
  | ORel r => Elem "relation" (meta_attrs ft (r_attrs r)) (map member_elem (r_members r) ++ tag_elems (o_tags (r_attrs r)))
  end.
Definition wattrs (a : xattrs) : list wcall := map (fun kv => WAttr (fst kv) (snd kv)) a.
Lemma calls_elem n a kids : calls_of (Elem n a kids) = WStart n :: wattrs a ++ flat_map calls_of kids ++ [WEnd].
Proof. reflexivity. Qed.
Lemma tag_calls ts : flat_map calls_of (tag_elems ts) = write_tags ts.
Proof. induction ts as [|t r IH]; [reflexivity|]. cbn [tag_elems map flat_map write_tags]. fold (tag_elems r). rewrite IH. reflexivity. Qed.
Lemma map_calls {A} (f : A -> xml) (g : A -> list wcall) l : (forall x, calls_of (f x) = g x) -> flat_map calls_of (map f l) = flat_map g l.
Proof. intros H. induction l as [|x r IH]; [reflexivity|]. cbn [map flat_map]. rewrite IH, H. reflexivity. Qed.
Lemma time_ok a : 0 <= o_timestamp a <= last_time -> o_timestamp a <> 0 -> to_iso (o_timestamp a) = Ok (ts_text a) /\ iso_text (o_timestamp a) (ts_text a).
Proof.
  intros R N. destruct (to_iso_spec (o_timestamp a)) as (s & E & T); [lia|]. unfold ts_text. rewrite E. auto.
Qed.
Lemma write_meta_attrs ft a : 0 <= o_timestamp a <= last_time -> write_meta ft a = Ok (wattrs (meta_attrs ft a)).
Proof.
  intros R. unfold write_meta, meta_attrs, wattrs. rewrite !map_app.
  destruct (Z.eqb_spec (o_timestamp a) 0) as [E|N].
  - cbn [obind]. destruct (o_version a =? 0), (o_uid a >? 0), (o_changeset a =? 0), (ft_multiple ft && negb (Pbf.ft_eqb ft FtChange)); reflexivity.
  - destruct (time_ok a R N) as [-> _]. cbn [obind]. destruct (o_version a =? 0), (o_uid a >? 0), (o_changeset a =? 0), (ft_multiple ft && negb (Pbf.ft_eqb ft FtChange)); reflexivity.
Qed.
Lemma write_object_elem ft o : in_range o -> write_object ft o = Ok (calls_of (object_elem ft o)).
Proof.
  intros [(_ & _ & _ & _ & T & _) _]. destruct o as [n|w|r]; cbn [write_object object_elem obj_attrs] in *; rewrite (write_meta_attrs ft _ T); cbn [obind]; rewrite calls_elem; f_equal; cbn [app]; f_equal.
  - unfold wattrs. rewrite map_app, <- app_assoc. rewrite tag_calls. f_equal. f_equal. unfold position_calls, pos_attrs. destruct (pos_defined (n_pos n)); reflexivity.
  - rewrite flat_map_app, tag_calls, <- !app_assoc. f_equal. f_equal. symmetry. apply map_calls. reflexivity.
  - rewrite flat_map_app, tag_calls, <- !app_assoc. f_equal. f_equal. symmetry. apply map_calls. reflexivity.
Qed.

(* ---- they are readable ---- *)
Lemma attr_app k a b : attr k (a ++ b) = match attr k a with Some v => Some v | None => attr k b end.
Proof. induction a as [|[n v] r IH]; [reflexivity|]. cbn [app attr]. destruct (String.eqb n k); [reflexivity|exact IH]. Qed.
Ltac attr_cases := unfold meta_attrs; rewrite ?attr_app; 
  repeat match goal with |- context [if ?c then _ else _] => let E := fresh "E" in destruct c eqn:E end; try reflexivity.
Lemma ma_id ft a : attr "id" (meta_attrs ft a) = Some (print_Z (o_id a)).
Proof. reflexivity. Qed.
Lemma ma_version ft a : attr "version" (meta_attrs ft a) = if o_version a =? 0 then None else Some (print_Z (to_i32 (o_version a))).
Proof. attr_cases. Qed.
Lemma ma_timestamp ft a : attr "timestamp" (meta_attrs ft a) = if o_timestamp a =? 0 then None else Some (ts_text a).
Proof. attr_cases. Qed.
Lemma ma_uid ft a : attr "uid" (meta_attrs ft a) = if o_uid a >? 0 then Some (print_Z (o_uid a)) else None.
Proof. attr_cases. Qed.
Lemma ma_user ft a : attr "user" (meta_attrs ft a) = if o_uid a >? 0 then Some (o_user a) else None.
Proof. attr_cases. Qed.
Lemma ma_changeset ft a : attr "changeset" (meta_attrs ft a) = if o_changeset a =? 0 then None else Some (print_Z (o_changeset a)).
Proof. attr_cases. Qed.
Lemma ma_visible ft a : attr "visible" (meta_attrs ft a) =
  if ft_multiple ft && negb (Pbf.ft_eqb ft FtChange) then Some (if o_visible a then "true" else "false")%string else None.
Proof. attr_cases. Qed.
Lemma ma_lon ft a : attr "lon" (meta_attrs ft a) = None.
Proof. attr_cases. Qed.
Lemma ma_lat ft a : attr "lat" (meta_attrs ft a) = None.
Proof. attr_cases. Qed.
Lemma NoDup_meta ft a p : NoDup (map fst (meta_attrs ft a ++ pos_attrs p)).
Proof.
  unfold meta_attrs, pos_attrs. destruct (o_version a =? 0), (o_timestamp a =? 0), (o_uid a >? 0), (o_changeset a =? 0), (ft_multiple ft && negb (Pbf.ft_eqb ft FtChange)), (pos_defined p);
    cbn [app map fst]; repeat (constructor; [cbn [In]; intros H; repeat (destruct H as [H|H]; [discriminate H|]); exact H|]); constructor.
Qed.
Lemma NoDup_meta' ft a : NoDup (map fst (meta_attrs ft a)).
Proof. pose proof (NoDup_meta ft a undef_pos) as H. change (pos_attrs undef_pos) with (@nil (string * string)) in H. rewrite app_nil_r in H. exact H. Qed.
(** attributes [l] that say what [meta_attrs] says, apart from the position *)
Definition same_meta (ft : ftype) (a : attrs) (l : xattrs) : Prop :=
  forall k, k <> "lon"%string -> k <> "lat"%string -> attr k l = attr k (meta_attrs ft a).
Lemma same_meta_refl ft a : same_meta ft a (meta_attrs ft a).
Proof. intros k _ _. reflexivity. Qed.
Lemma same_meta_pos ft a p : same_meta ft a (meta_attrs ft a ++ pos_attrs p).
Proof.
  intros k N1 N2. rewrite attr_app. destruct (attr k (meta_attrs ft a)); [reflexivity|]. unfold pos_attrs. destruct (pos_defined p); [|reflexivity].
  cbn [attr]. destruct (String.eqb_spec "lat" k); [congruence|]. destruct (String.eqb_spec "lon" k); [congruence|]. reflexivity.
Qed.
Lemma u32_text v : in_u32 v -> in_i64 (to_i32 v) /\ to_i32 v mod 4294967296 = v.
Proof. unfold in_u32, in_i64, to_i32, int64_min, int64_max. lia. Qed.
Lemma meta_readable ft a l : attrs_in_range a -> same_meta ft a l -> NoDup (map fst l) ->
  if_there "lon" l readable_coordinate -> if_there "lat" l readable_coordinate -> readable_attrs l.
Proof.
  intros (H1 & H2 & H3 & H4 & H5 & H6) S ND L1 L2. split; [exact ND|]. unfold if_there in *.
  rewrite !S by discriminate. rewrite ma_id, ma_version, ma_changeset, ma_uid, ma_timestamp, ma_user.
  split; [eexists; apply print_number_text; exact H1|].
  split; [destruct (o_version a =? 0); [exact I|]; eexists; apply print_number_text; apply u32_text; exact H2|].
  split; [destruct (o_changeset a =? 0); [exact I|]; eexists; apply print_number_text; apply i32_i64; exact H3|].
  split; [destruct (o_uid a >? 0); [|exact I]; eexists; apply print_number_text; apply i32_i64; exact H4|].
  split; [destruct (Z.eqb_spec (o_timestamp a) 0); [exact I|]; exists (o_timestamp a); apply time_ok; assumption|].
  split; [destruct (o_uid a >? 0); [exact H6|exact I]|]. split; assumption.
Qed.
Lemma position_readable ft a p : in_i32 (px p) -> in_i32 (py p) ->
  if_there "lon" (meta_attrs ft a ++ pos_attrs p) readable_coordinate /\ if_there "lat" (meta_attrs ft a ++ pos_attrs p) readable_coordinate.
Proof.
  intros Hx Hy. unfold if_there. rewrite !attr_app, ma_lon, ma_lat. unfold pos_attrs. destruct (pos_defined p); [|split; exact I].
  split; apply coord_readable; assumption.
Qed.
Lemma tag_elems_readable n ts : Forall (readable_kid n) (tag_elems ts).
Proof.
  apply Forall_forall. intros e I. apply in_map_iff in I. destruct I as (t & <- & _). cbn. split; [reflexivity|].
  split; [repeat (constructor; [cbn; intuition discriminate|]); constructor|]. split; intros _ E; discriminate E.
Qed.
Lemma kids_readable ft o : in_range o -> match object_elem ft o with Elem n _ kids => Forall (readable_kid n) kids end.
Proof.
  intros [_ H]. destruct o as [n|w|r]; cbn [object_elem].
  - apply tag_elems_readable.
  - apply Forall_app. split; [|apply tag_elems_readable]. apply Forall_map. eapply Forall_impl; [|exact H]. intros x Hx. cbn.
    split; [reflexivity|]. split; [repeat (constructor; [cbn; intuition|]); constructor|]. split; [intros _ _; eexists; apply print_number_text; exact Hx|discriminate].
  - apply Forall_app. split; [|apply tag_elems_readable]. apply Forall_map. eapply Forall_impl; [|exact H]. intros x [Hx Hl]. cbn.
    split; [reflexivity|]. split; [repeat (constructor; [cbn; intuition discriminate|]); constructor|]. split; [discriminate|]. intros _ _. split; [eexists; apply print_number_text; exact Hx|exact Hl].
Qed.
Lemma object_readable ft del o : in_range o -> readable del (object_elem ft o).
Proof.
  intros H. pose proof (kids_readable ft o H) as K. destruct H as [A P]. destruct o as [n|w|r]; cbn [object_elem obj_attrs] in *; cbn [readable].
  - change (is_object_name "node") with true. split; [|exact K]. destruct (position_readable ft (n_attrs n) (n_pos n) (proj1 P) (proj2 P)).
    apply (meta_readable ft (n_attrs n)); [exact A|apply same_meta_pos|apply NoDup_meta|assumption|assumption].
  - change (is_object_name "way") with true. split; [|exact K]. apply (meta_readable ft (w_attrs w)); [exact A|apply same_meta_refl|apply NoDup_meta'| |]; unfold if_there; rewrite ?ma_lon, ?ma_lat; exact I.
  - change (is_object_name "relation") with true. split; [|exact K]. apply (meta_readable ft (r_attrs r)); [exact A|apply same_meta_refl|apply NoDup_meta'| |]; unfold if_there; rewrite ?ma_lon, ?ma_lat; exact I.
Qed.

(* ---- they describe what is kept of the object, and only that ---- *)
Definition in_delete (ft : ftype) (a : attrs) : bool := Pbf.ft_eqb ft FtChange && negb (o_visible a).
Lemma tags_of_app a b : tags_of (a ++ b) = tags_of a ++ tags_of b.
Proof. apply flat_map_app. Qed.
Lemma tags_of_tag_elems ts : tags_of (tag_elems ts) = ts.
Proof. induction ts as [|[k v] r IH]; [reflexivity|]. cbn [tag_elems map]. fold (tag_elems r). rewrite tags_of_cons, IH. reflexivity. Qed.
Lemma tags_of_map {A} (f : A -> xml) l : (forall x, elem_tags (f x) = []) -> tags_of (map f l) = [].
Proof. intros H. induction l as [|x r IH]; [reflexivity|]. cbn [map]. rewrite tags_of_cons, IH, H. reflexivity. Qed.
Lemma i32_mod_unique n m : in_i32 n -> in_i32 m -> (n - m) mod 4294967296 = 0 -> n = m.
Proof. unfold in_i32, int32_min, int32_max. lia. Qed.
Lemma visible_kept ft a : (match (if ft_multiple ft && negb (Pbf.ft_eqb ft FtChange) then Some (if o_visible a then "true" else "false")%string else None) with
     | Some s => negb (String.eqb s "false") | None => negb (in_delete ft a) end) = match ft with FtOSM => true | _ => o_visible a end.
Proof. unfold in_delete. destruct ft, (o_visible a); reflexivity. Qed.
Lemma attrs_kept ft a l kids : attrs_in_range a -> same_meta ft a l -> tags_of kids = o_tags a ->
  attrs_described (in_delete ft a) l kids (kept_attrs ft a).
Proof.
  intros (H1 & H2 & H3 & H4 & H5 & H6) S T. unfold kept_attrs. constructor; cbn [o_id o_version o_changeset o_timestamp o_endtime o_uid o_user o_visible o_tags];
    unfold attr_or; rewrite ?S by discriminate.
  - rewrite ma_id. apply print_number_text. exact H1.
  - rewrite ma_version. destruct (Z.eqb_spec (o_version a) 0); [assumption|]. exists (to_i32 (o_version a)). destruct (u32_text _ H2) as [A B]. split; [apply print_number_text; exact A|congruence].
  - rewrite ma_changeset. destruct (Z.eqb_spec (o_changeset a) 0); [assumption|]. exists (o_changeset a). split; [apply print_number_text; apply i32_i64; exact H3|]. split; [exact H3|]. rewrite Z.sub_diag. reflexivity.
  - rewrite ma_timestamp. destruct (Z.eqb_spec (o_timestamp a) 0); [assumption|]. apply time_ok; assumption.
  - rewrite ma_uid. rewrite Z.gtb_ltb. destruct (0 <? o_uid a); [|reflexivity]. exists (o_uid a). split; [apply print_number_text; apply i32_i64; exact H4|]. split; [exact H4|]. rewrite Z.sub_diag. reflexivity.
  - rewrite ma_user. rewrite Z.gtb_ltb. destruct (0 <? o_uid a); reflexivity.
  - rewrite ma_visible. symmetry. apply visible_kept.
  - reflexivity.
  - symmetry. exact T.
Qed.
(** the element of an object describes one object only *)
Lemma attrs_described_unique del l kids x y : attrs_described del l kids x -> attrs_described del l kids y -> x = y.
Proof.
  intros [A1 A2 A3 A4 A5 A6 A7 A8 A9] [B1 B2 B3 B4 B5 B6 B7 B8 B9]. destruct x, y; cbn in *.
  f_equal; try congruence.
  - destruct (attr "id" l); [eapply number_text_unique; eassumption|congruence].
  - destruct (attr "version" l); [|congruence]. destruct A2 as (n & N & ->), B2 as (m & M & ->). rewrite (number_text_unique _ _ _ N M). reflexivity.
  - destruct (attr "changeset" l); [|congruence]. destruct A3 as (n & N & R & E), B3 as (m & M & R' & E'). rewrite (number_text_unique _ _ _ N M) in E. apply i32_mod_unique; [exact R|exact R'|lia].
  - destruct (attr "timestamp" l); [|congruence]. eapply iso_unique; eassumption.
  - destruct (attr "uid" l); [|congruence]. destruct A5 as (n & N & R & E), B5 as (m & M & R' & E'). rewrite (number_text_unique _ _ _ N M) in E. apply i32_mod_unique; [exact R|exact R'|lia].
Qed.
Lemma refs_of_app a b : refs_of (a ++ b) = refs_of a ++ refs_of b.
Proof. apply flat_map_app. Qed.
Lemma refs_of_tags ts : refs_of (tag_elems ts) = [].
Proof. induction ts; [reflexivity|]. exact IHts. Qed.
Lemma refs_of_nds ns : refs_of (map nd_elem ns) = map (fun n => print_Z (wn_ref n)) ns.
Proof. induction ns as [|n r IH]; [reflexivity|]. cbn [map]. rewrite <- IH. reflexivity. Qed.
Lemma members_of_app a b : members_of (a ++ b) = members_of a ++ members_of b.
Proof. apply flat_map_app. Qed.
Lemma members_of_tags ts : members_of (tag_elems ts) = [].
Proof. induction ts; [reflexivity|]. exact IHts. Qed.
Definition member_elem_attrs (m : member) : xattrs := [("type", type_name (m_type m)); ("ref", print_Z (m_ref m)); ("role", m_role m)]%string.
Lemma members_of_members ms : members_of (map member_elem ms) = map member_elem_attrs ms.
Proof. induction ms as [|n r IH]; [reflexivity|]. cbn [map]. rewrite <- IH. reflexivity. Qed.
Lemma Rminus_eq_0 x : (x - x = 0)%R.
Proof. ring. Qed.
Lemma object_kept ft o : in_range o -> described (in_delete ft (obj_attrs o)) (object_elem ft o) (kept ft o).
Proof.
  intros [A P]. destruct o as [n|w|r]; cbn [object_elem kept described obj_attrs n_attrs w_attrs r_attrs n_pos w_nodes r_members] in *; (split; [reflexivity|]).
  - split; [apply attrs_kept; [exact A|apply same_meta_pos|apply tags_of_tag_elems]|]. unfold coordinate_described. rewrite !attr_app, ma_lon, ma_lat. unfold pos_attrs.
    destruct P as [Px Py]. destruct (pos_defined (n_pos n)); [|split; reflexivity].
    split; (split; [assumption|]; eexists; split; [apply coord_decimal; assumption|]); rewrite Rminus_eq_0, Rabs_R0; unfold precision; lra.
  - split; [apply attrs_kept; [exact A|apply same_meta_refl|]; rewrite tags_of_app, tags_of_tag_elems, tags_of_map by reflexivity; reflexivity|].
    rewrite refs_of_app, refs_of_tags, refs_of_nds, app_nil_r. clear A. induction P as [|x r Hx Hr IH]; constructor; [|exact IH]. split; [apply print_number_text; exact Hx|reflexivity].
  - split; [apply attrs_kept; [exact A|apply same_meta_refl|]; rewrite tags_of_app, tags_of_tag_elems, tags_of_map by reflexivity; reflexivity|].
    rewrite members_of_app, members_of_tags, members_of_members, app_nil_r. clear A. induction P as [|x l Hx Hr IH]; constructor; [|exact IH].
    split; [reflexivity|]. split; [apply print_number_text; exact (proj1 Hx)|reflexivity].
Qed.
Lemma position_unique ft a p q : in_i32 (px p) -> in_i32 (py p) ->
  coordinate_described "lon" (meta_attrs ft a ++ pos_attrs p) (px q) -> coordinate_described "lat" (meta_attrs ft a ++ pos_attrs p) (py q) ->
  q = if pos_defined p then p else undef_pos.
Proof.
  intros Hx Hy. unfold coordinate_described. rewrite !attr_app, ma_lon, ma_lat. unfold pos_attrs. destruct p as [x y], q as [x' y']. cbn [px py] in *.
  destruct (pos_defined _).
  - cbn. intros A B. apply near_unique in A; [|exact Hx]. apply near_unique in B; [|exact Hy]. subst. reflexivity.
  - cbn. intros -> ->. reflexivity.
Qed.
Lemma object_unique ft del o o' : in_range o -> described del (object_elem ft o) o' -> described del (object_elem ft o) (kept ft o) -> o' = kept ft o.
Proof.
  intros [A P]. destruct o as [n|w|r], o' as [n'|w'|r']; cbn [object_elem kept described n_attrs w_attrs r_attrs n_pos w_nodes r_members];
    try (intros [E _]; discriminate E); intros (_ & X & Y) (_ & X' & Y').
  - destruct n' as [a' p']. cbn [n_attrs n_pos] in *. rewrite (attrs_described_unique _ _ _ _ _ X X'). f_equal. f_equal. destruct P. eapply position_unique; try eassumption; apply Y.
  - destruct w' as [a' ns]. cbn [w_attrs w_nodes] in *. rewrite (attrs_described_unique _ _ _ _ _ X X'). f_equal. f_equal. clear X X' A P. revert Y'. generalize (map (fun n => mkWN (wn_ref n) undef_pos) (w_nodes w)). induction Y as [|s x l l' [Hx Hp] F IH]; intros l'' Y'; inversion Y' as [|s2 x2 l2 l3 [Hx2 Hp2] F2]; subst; [reflexivity|].
    destruct x as [i p], x2 as [i2 p2]. cbn in *. rewrite (number_text_unique _ _ _ Hx Hx2). f_equal; [congruence|]. apply IH. exact F2.
  - destruct r' as [a' ns]. cbn [r_attrs r_members] in *. rewrite (attrs_described_unique _ _ _ _ _ X X'). f_equal. f_equal. clear X X' A P. revert Y'. generalize (map (fun m => mkMember (first_char (type_name (m_type m))) (m_ref m) (m_role m)) (r_members r)). induction Y as [|s x l l' (Ht & Hx & Hp) F IH]; intros l'' Y'; inversion Y' as [|s2 x2 l2 l3 (Ht2 & Hx2 & Hp2) F2]; subst; [reflexivity|].
    destruct x as [t i p], x2 as [t2 i2 p2]. cbn [m_type m_ref m_role] in *. rewrite Ht, Ht2, Hp, Hp2. f_equal; [|apply IH; exact F2]. f_equal.
    destruct (attr "ref" s); [eapply number_text_unique; eassumption|congruence].
Qed.
