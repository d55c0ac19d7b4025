(** Proofs about the shapefile export. *)
From Verif Require Import Base.Prelude Model.Osm Model.Float Model.Geom Model.Shapefile Model.Handler Model.Convert Model.Toshape
  Spec.OsmSpec Spec.HandlerSpec Spec.GeomSpec Spec.ShapefileSpec Spec.ToshapeSpec
  Proofs.OsmProofs Proofs.HandlerProofs Proofs.Handler2Proofs Proofs.GeomProofs Proofs.ShapefileProofs Proofs.Shapefile2Proofs Proofs.ObjectsOnly.
Local Open Scope Z_scope.

(* ---- lists of rows ---- *)
Section Exported.
  Context {A R : Type}.
  Variables (sel : A -> Prop) (ok : A -> R -> Prop).
  Lemma exported_app l1 r1 l2 r2 : exported sel ok l1 r1 -> exported sel ok l2 r2 -> exported sel ok (l1 ++ l2) (r1 ++ r2).
  Proof. intros H G. induction H; cbn [app]; [exact G| |]; constructor; assumption. Qed.
  Lemma exported_one a r : sel a -> ok a r -> exported sel ok [a] [r].
  Proof. intros H G. constructor; [exact H|exact G|constructor]. Qed.
  Lemma exported_none a : ~ sel a -> exported sel ok [a] [].
  Proof. intros H. constructor; [exact H|constructor]. Qed.
End Exported.

(* ---- tags ---- *)
Lemma tagged_get ts k v : tagged ts k v <-> get_value_by_key ts k = Some v.
Proof.
  induction ts as [|t ts IH]; cbn [get_value_by_key].
  - split; [|discriminate]. intros (l1 & l2 & E & _). destruct l1; discriminate.
  - destruct (String.eqb_spec (tkey t) k) as [E|E].
    + split.
      * intros (l1 & l2 & Et & F). destruct l1 as [|x l1]; cbn [app] in Et.
        -- injection Et as -> _. reflexivity.
        -- injection Et as -> _. inversion F; subst. contradiction.
      * intros Q. injection Q as <-. exists [], ts. split; [|constructor]. destruct t; cbn in *; subst; reflexivity.
    + rewrite <- IH. split.
      * intros (l1 & l2 & Et & F). destruct l1 as [|x l1]; cbn [app] in Et.
        -- injection Et as -> _. cbn in E. contradiction.
        -- injection Et as -> ->. inversion F; subst. exists l1, l2. auto.
      * intros (l1 & l2 & -> & F). exists (t :: l1), l2. split; [reflexivity|]. constructor; assumption.
Qed.
Lemma untagged_get ts k : (forall v, ~ tagged ts k v) <-> get_value_by_key ts k = None.
Proof.
  split.
  - intros H. destruct (get_value_by_key ts k) as [v|] eqn:E; [|reflexivity]. destruct (H v). apply tagged_get. exact E.
  - intros E v T. apply tagged_get in T. congruence.
Qed.

(* ---- texts ---- *)
Lemma truncate_defined w v : 3 <= w <= 255 -> exists t, truncate w v = Ok t.
Proof.
  intros H. unfold truncate, max_dbf_field_length. rewrite (proj2 (Z.ltb_ge _ _)) by lia. rewrite Z.gtb_ltb, (proj2 (Z.ltb_ge _ _)) by lia. cbn [orb].
  destruct (Z.to_nat w) as [|[|[|i]]] eqn:E; try lia.
  cbv zeta. destruct (negb _); [|eauto]. destruct (negb _); [eauto|]. destruct (_ =? 224); [eauto|]. destruct (_ =? 240); eauto.
Qed.

(* ---- one row ---- *)
Lemma change_last_snoc f rs r : change_last f (rs ++ [r]) = rs ++ [f r].
Proof. unfold change_last. rewrite rev_app_distr. cbn [rev app]. rewrite rev_involutive. reflexivity. Qed.
Lemma add_geometry_same opens s o ok s' r : add_geometry opens s o ok = (s', r) -> ss_fields s' = ss_fields s /\ ss_type s' = ss_type s.
Proof.
  unfold add_geometry. destruct o as [o|]; [|intros E; injection E as <- <-; auto].
  destruct (ss_cur s) as [c|]; [|intros E; injection E as <- <-; auto].
  destruct (shptype_eq _ _) as [ET|ET]; [|intros E; injection E as <- <-; auto].
  destruct (length_on_disk o) as [len|e| |]; try (intros E; injection E as <- <-; auto; fail).
  cbv zeta. destruct (_ || _).
  - unfold open. destruct (opens _); [|intros E; injection E as <- <-; auto].
    unfold write. cbn [ss_cur count]. destruct ok; intros E; injection E as <- <-; auto.
  - unfold write. destruct (ss_cur _); [destruct ok|]; intros E; injection E as <- <-; auto.
Qed.
Lemma add_geometry_type opens s o ok s' : s_type o = ss_type s -> s_type o <> SHPT_UNKNOWN ->
  add_geometry opens s (Some o) ok <> (s', Throw EIllegalGeometry).
Proof.
  intros T U. unfold add_geometry. destruct (ss_cur s) as [c|]; [|discriminate].
  destruct (shptype_eq _ _) as [_|N]; [|contradiction].
  assert (L : forall e, length_on_disk o <> Throw e).
  { intros e. unfold length_on_disk, imul. destruct (s_type o); try (destruct (in_i32b _); discriminate); try discriminate.
    - destruct (in_i32b (s_parts o * 2)); cbn [obind]; [|discriminate]. destruct (in_i32b _); discriminate.
    - contradiction. }
  destruct (length_on_disk o) as [len|e| |]; try discriminate; [|destruct (L e eq_refl)].
  cbv zeta. destruct (_ || _).
  - destruct (open _ _) as [s4 opened]. destruct opened; [|intros E; injection E; discriminate].
    unfold write. destruct (ss_cur _); [destruct ok|]; discriminate.
  - unfold write. destruct (ss_cur _); [destruct ok|]; discriminate.
Qed.

(** the fields and type of a layer *)
Definition layer_kind (type : shptype) (name : string) (ly : layer) : Prop :=
  ss_type (ly_shp ly) = type /\ ss_fields (ly_shp ly) = [mkField "id" FTDouble 12 0; mkField name FTString 30 0].
Definition cell_of (text : option string) : option (list Z) :=
  match text with Some v => match truncate 30 (text_bytes v) with Ok t => Some t | _ => None end | None => None end.

Lemma add_row_done lib opens type parts ps id text name ly k ly' k' r :
  layer_kind type name ly -> type <> SHPT_UNKNOWN ->
  add_row lib opens type parts ps id text ly k = (ly', k', r) ->
  r <> Throw EIllegalGeometry /\ layer_kind type name ly' /\
  (r = Ok tt -> ly_rows ly' = ly_rows ly ++ [mkRow ps (Some (d_of_Z id)) (cell_of text)]).
Proof.
  intros [KT KF] U E. unfold add_row, lbind, add_shape in E.
  set (o := mkShp _ _ _ _) in E. destruct (add_geometry opens (ly_shp ly) (Some o) (lib k)) as [s1 r1] eqn:G.
  destruct (add_geometry_same _ _ _ _ _ _ G) as [F1 T1].
  assert (NI : r1 <> Throw EIllegalGeometry).
  { intros ->. exact (add_geometry_type opens (ly_shp ly) o (lib k) s1 (eq_sym KT) U G). }
  destruct r1 as [u|e| |]; try (injection E as <- <- <-; split; [first [exact NI|discriminate]|]; split; [split; cbn [ly_shp]; congruence|discriminate]).
  unfold add_double in E. cbn beta iota zeta in E. destruct (lib (S k)); cbn beta iota zeta in E; [|injection E as <- <- <-; split; [discriminate|]; split; [split; cbn [ly_shp]; congruence|discriminate]].
  cbn [ly_rows ly_shp] in E. rewrite change_last_snoc in E. cbn [row_points row_text] in E.
  assert (K1 : layer_kind type name (mkLayer s1 (ly_rows ly ++ [mkRow ps (Some (d_of_Z id)) None]))) by (split; cbn [ly_shp]; congruence).
  destruct text as [v|].
  - unfold add_truncated in E. cbn [ly_shp] in E. rewrite F1, KF in E. cbn [nth_error f_width] in E. cbn [cell_of].
    destruct (truncate_defined 30 (text_bytes v) ltac:(lia)) as [t Ht]. rewrite Ht in E |- *. unfold add_text in E. cbn [ly_shp ly_rows] in E.
    rewrite change_last_snoc in E. cbn [row_points row_id] in E.
    destruct (lib (S (S k))); injection E as <- <- <-; (split; [discriminate|]); (split; [exact K1|]); [intros _; reflexivity|discriminate].
  - injection E as <- <- <-. split; [discriminate|]. split; [exact K1|]. intros _. reflexivity.
Qed.
Lemma cell_text ts k cell : cell = cell_of (get_value_by_key ts k) -> text_cell ts k cell.
Proof.
  intros ->. split.
  - intros v T. apply tagged_get in T. rewrite T. cbn [cell_of]. destruct (truncate_defined 30 (text_bytes v) ltac:(lia)) as [t Ht]. rewrite Ht.
    exists t. split; [reflexivity|]. intros cs U E. rewrite E, truncate_thm in Ht by (exact U || lia). injection Ht as <-. reflexivity.
  - intros N. apply untagged_get in N. rewrite N. reflexivity.
Qed.
Lemma caught_none {A} (r : outcome A) : caught r = None -> (exists a, r = Ok a) \/ r = Throw EIllegalGeometry.
Proof.
  destruct r as [a|e| |]; try discriminate; [eauto|]. destruct e; try discriminate. cbn [caught]. destruct (Z.eqb_spec n 11) as [->|N]; [|discriminate]. right. reflexivity.
Qed.

(* ---- one object ---- *)
Lemma consistent_squeeze ns : (2 <= List.length (squeeze (map wn_pos ns)))%nat <->
  exists a b, In a ns /\ In b ns /\ wn_pos a <> wn_pos b.
Proof.
  destruct (squeeze_facts (map wn_pos ns)) as [N S]. split.
  - intros L. remember (squeeze (map wn_pos ns)) as sq eqn:E. destruct sq as [|p [|q l]]; cbn in L; try lia. clear E. destruct N as [N _].
    assert (I : forall x, In x (p :: q :: l) -> In x (map wn_pos ns)).
    { revert S. generalize (p :: q :: l) (map wn_pos ns). clear. intros sq ps S. induction S as [|p n l l' S IH]; [intros x []|].
      intros x [<-|X]; cbn [repeat app]; [left; reflexivity|]. right. apply in_app_iff. right. apply IH. exact X. }
    assert (Ip : In p (map wn_pos ns)) by (apply I; left; reflexivity). assert (Iq : In q (map wn_pos ns)) by (apply I; right; left; reflexivity).
    apply in_map_iff in Ip as (a & <- & Ia). apply in_map_iff in Iq as (b & <- & Ib). exists a, b. auto.
  - intros (a & b & Ia & Ib & D). apply (in_map wn_pos) in Ia, Ib. revert S Ia Ib. generalize (squeeze (map wn_pos ns)) (map wn_pos ns). clear -D. intros sq ps S Ia Ib.
    destruct S as [|p n l l' S]; [destruct Ia|]. destruct S as [|q m l l' S]; [|cbn; lia].
    rewrite app_nil_r in Ia, Ib. apply repeat_spec in Ia, Ib. congruence.
Qed.
Lemma combine_lonlat ps : combine (map pos_lon ps) (map pos_lat ps) = map lonlat ps.
Proof. induction ps as [|p ps IH]; [reflexivity|]. cbn [map combine]. rewrite IH. reflexivity. Qed.
Lemma has_position_last ns n : wnl_has_position (ns ++ [n]) = pos_defined (wn_pos n).
Proof.
  destruct ns as [|m r]; [reflexivity|]. cbn [app wnl_has_position]. unfold wn_has_position. f_equal. f_equal. apply last_last.
Qed.
Definition kinds {P N} (s : tstate P N) : Prop := layer_kind SHPT_POINT "operator" (t_points s) /\ layer_kind SHPT_ARC "type" (t_lines s).
Definition way_consistent (o : object) : Prop := match o with OWay w => consistent (w_nodes w) | _ => True end.
(** the rows for one object *)
Definition adds {P N} (o : object) (s s' : tstate P N) : Prop :=
  exists a b, ly_rows (t_points s') = ly_rows (t_points s) ++ a /\ ly_rows (t_lines s') = ly_rows (t_lines s) ++ b /\
    exported post_box post_box_row [o] a /\ exported road road_row [o] b.

Section Export.
  Context {P N : Type}.
  Variable lib : nat -> bool.
  Variables op ol : Z -> bool.
  Lemma export_node_rows n (s s' : tstate P N) : kinds s -> export_node lib op n s = (s', None) -> kinds s' /\ adds (ONode n) s s'.
  Proof.
    intros [Kp Kl] E. unfold export_node in E.
    assert (NR : exported road road_row [ONode n] []) by (apply exported_none; intros [(w & v & X & _) _]; discriminate X).
    assert (NB : get_value_by_key (o_tags (n_attrs n)) "amenity" <> Some "post_box"%string -> s' = s -> kinds s' /\ adds (ONode n) s s').
    { intros G ->. split; [split; assumption|]. exists [], []. rewrite !app_nil_r. split; [reflexivity|]. split; [reflexivity|]. split; [|exact NR].
      apply exported_none. intros (m & X & T). injection X as <-. apply tagged_get in T. contradiction. }
    destruct (get_value_by_key (o_tags (n_attrs n)) "amenity") as [v|] eqn:G; [|injection E as <-; apply NB; [discriminate|reflexivity]].
    destruct (String.eqb_spec v "post_box") as [->|V]; [|injection E as <-; apply NB; [congruence|reflexivity]]. clear NB.
    cbv zeta in E. destruct (add_row lib op SHPT_POINT 0 _ _ _ (t_points s) (t_calls s)) as [[ly k] r] eqn:A.
    destruct (add_row_done _ _ _ _ _ _ _ _ _ _ _ _ _ Kp ltac:(discriminate) A) as (NI & K' & Rw). injection E as <- C.
    destruct (caught_none r C) as [[[] ->]| ->]; [|destruct (NI eq_refl)]. specialize (Rw eq_refl).
    split; [split; [exact K'|exact Kl]|]. eexists _, []. cbn [t_points t_lines]. rewrite (app_nil_r (ly_rows (t_lines s))). split; [exact Rw|]. split; [reflexivity|]. split; [|exact NR].
    apply exported_one; [exists n; split; [reflexivity|apply tagged_get; exact G]|].
    split; [reflexivity|]. split; [reflexivity|]. apply cell_text. reflexivity.
  Qed.
  Lemma export_way_rows w (s s' : tstate P N) : kinds s -> consistent (w_nodes w) -> export_way lib ol w s = (s', None) -> kinds s' /\ adds (OWay w) s s'.
  Proof.
    intros [Kp Kl] Co E. unfold export_way in E.
    assert (NR : exported post_box post_box_row [OWay w] []) by (apply exported_none; intros (n & X & _); discriminate X).
    assert (NB : ~ road (OWay w) -> s' = s -> kinds s' /\ adds (OWay w) s s').
    { intros G ->. split; [split; assumption|]. exists [], []. rewrite !app_nil_r. split; [reflexivity|]. split; [reflexivity|]. split; [exact NR|].
      apply exported_none. exact G. }
    destruct (get_value_by_key (o_tags (w_attrs w)) "highway") as [v|] eqn:G; [|injection E as <-; apply NB; [|reflexivity]].
    2:{ intros [(w' & v & X & T) _]. injection X as <-. apply tagged_get in T. congruence. }
    destruct (wnl_has_position (w_nodes w)) eqn:Hp.
    2:{ unfold line_or_polygon, linestring_new in E. cbn [fw_nodes] in E. rewrite Hp in E. discriminate E. }
    pose proof (shp_thm (linestring_new (w_nodes w) false) Co Hp) as Q. cbn [fw_nodes linestring_new fw_reverse] in Q. cbv zeta in Q. rewrite Q in E. clear Q.
    unfold positions in E. pose proof (consistent_squeeze (w_nodes w)) as Sq.
    destruct (Nat.ltb_spec (List.length (squeeze (map wn_pos (w_nodes w)))) 2) as [L|L].
    - injection E as <-. apply NB; [|reflexivity]. intros [_ (w' & a & b & X & D)]. injection X as <-. assert (2 <= List.length (squeeze (map wn_pos (w_nodes w))))%nat by (apply Sq; eauto). lia.
    - rewrite combine_lonlat in E. clear NB.
      destruct (add_row lib ol SHPT_ARC 1 _ _ _ (t_lines s) (t_calls s)) as [[ly k] r] eqn:A.
      destruct (add_row_done _ _ _ _ _ _ _ _ _ _ _ _ _ Kl ltac:(discriminate) A) as (NI & K' & Rw). injection E as <- C.
      destruct (caught_none r C) as [[[] ->]| ->]; [|destruct (NI eq_refl)]. specialize (Rw eq_refl).
      split; [split; [exact Kp|exact K']|]. eexists [], _. cbn [t_points t_lines]. rewrite (app_nil_r (ly_rows (t_points s))). split; [reflexivity|]. split; [exact Rw|]. split; [exact NR|].
      apply exported_one.
      + split; [exists w, v; split; [reflexivity|apply tagged_get; exact G]|]. apply Sq in L as (a & b & Ia & Ib & D). exists w, a, b. auto.
      + split; [reflexivity|]. split; [reflexivity|]. apply cell_text. cbn [row_text]. rewrite G. reflexivity.
  Qed.
End Export.

Section Run.
  Context {P N : Type}.
  Variable pset : Z -> position -> P -> outcome P.
  Variable pget : Z -> P -> outcome position.
  Variable nset : Z -> position -> N -> outcome N.
  Variable nget : Z -> N -> outcome position.
  Variable lib : nat -> bool.
  Variables op ol : Z -> bool.
  Let h := toshape pset pget nset nget lib op ol.

  Lemma toshape_run os : forall s s' os' st', cfw_run pset pget nset nget os (t_stores s) = Ok (os', st') -> Forall way_consistent os' ->
    kinds s -> run_objects h os s = (s', None) ->
    kinds s' /\ exists a b, ly_rows (t_points s') = ly_rows (t_points s) ++ a /\ ly_rows (t_lines s') = ly_rows (t_lines s) ++ b /\
      exported post_box post_box_row os' a /\ exported road road_row os' b.
  Proof.
    induction os as [|o os IH]; intros s s' os' st' C W K E.
    - cbn in C, E. injection C as <- <-. injection E as <-. split; [exact K|]. exists [], []. rewrite !app_nil_r. repeat split; constructor.
    - cbn [cfw_run] in C. cbn [run_objects] in E. unfold h at 1 in E. cbn [toshape] in E.
      destruct (cfw_step pset pget nset nget o (t_stores s)) as [[o1 st1]|e| |]; try discriminate C. cbn [obind fst snd] in C.
      destruct (cfw_run pset pget nset nget os st1) as [[r1 st2]|e| |] eqn:C1; try discriminate C. cbn [obind fst snd] in C. injection C as <- <-.
      inversion W as [|? ? W1 W2]; subst. cbv zeta in E.
      set (s1 := mkT st1 (t_points s) (t_lines s) (t_calls s)) in E.
      assert (K1 : kinds s1) by exact K.
      assert (Step : forall s2, t_stores s2 = st1 -> kinds s2 /\ adds o1 s1 s2 -> run_objects h os s2 = (s', None) ->
        kinds s' /\ exists a b, ly_rows (t_points s') = ly_rows (t_points s) ++ a /\ ly_rows (t_lines s') = ly_rows (t_lines s) ++ b /\
          exported post_box post_box_row (o1 :: r1) a /\ exported road road_row (o1 :: r1) b).
      { intros s2 S2 [K2 (a & b & A & B & EA & EB)] R. destruct (IH s2 s' r1 st2) as (K' & a' & b' & A' & B' & EA' & EB'); [rewrite S2; exact C1|exact W2|exact K2|exact R|].
        split; [exact K'|]. exists (a ++ a'), (b ++ b'). rewrite A', B', A, B. unfold s1. cbn [t_points t_lines]. rewrite <- !app_assoc. split; [reflexivity|]. split; [reflexivity|].
        split; [exact (exported_app _ _ [o1] _ _ _ EA EA')|exact (exported_app _ _ [o1] _ _ _ EB EB')]. }
      destruct o1 as [n|w|r].
      + destruct (export_node lib op n s1) as [s2 [x|]] eqn:X; [discriminate E|]. apply (Step s2); [|exact (export_node_rows lib op n s1 s2 K1 X)|exact E].
        unfold export_node in X. destruct (get_value_by_key _ _); [|injection X as <-; reflexivity]. destruct (String.eqb _ _); [|injection X as <-; reflexivity].
        cbv zeta in X. destruct (add_row _ _ _ _ _ _ _ _ _) as [[? ?] ?]. injection X as <- _. reflexivity.
      + destruct (export_way lib ol w s1) as [s2 [x|]] eqn:X; [discriminate E|]. apply (Step s2); [|exact (export_way_rows lib ol w s1 s2 K1 W1 X)|exact E].
        unfold export_way in X. destruct (get_value_by_key _ _); [|injection X as <-; reflexivity]. destruct (line_or_polygon _) as [[lon lat]|e| |]; try (injection X as <- _; reflexivity).
        destruct (add_row _ _ _ _ _ _ _ _ _) as [[? ?] ?]. injection X as <- _. reflexivity.
      + apply (Step s1); [reflexivity| |exact E]. split; [exact K1|]. exists [], []. rewrite !app_nil_r. split; [reflexivity|]. split; [reflexivity|].
        split; apply exported_none; [intros (n & X & _); discriminate X|intros [(w & v & X & _) _]; discriminate X].
  Qed.
End Run.

Lemma located_consistent seen dflt o : way_consistent (locate seen dflt o).
Proof.
  destruct o as [n|w|r]; cbn [locate way_consistent]; auto. cbn [w_nodes]. intros a b Ia Ib E.
  apply in_map_iff in Ia as (x & <- & _), Ib as (y & <- & _). cbn [wn_ref wn_pos] in *. rewrite E. reflexivity.
Qed.
Lemma stream_consistent dflt os : forall seen, Forall way_consistent (located_stream seen os dflt).
Proof. induction os as [|o os IH]; intros seen; constructor; [apply located_consistent|apply IH]. Qed.
Lemma stream_post_boxes dflt os : forall seen rs, exported post_box post_box_row (located_stream seen os dflt) rs -> exported post_box post_box_row os rs.
Proof.
  induction os as [|o os IH]; intros seen rs E; inversion E; subst; [constructor| |].
  - assert (Q : locate seen dflt o = o). { destruct o as [n|w|q]; try reflexivity. destruct H1 as (n & X & _). discriminate X. } rewrite Q in *.
    constructor; try assumption. eapply IH; eassumption.
  - constructor; [|eapply IH; eassumption]. intros B. destruct H1. destruct o; try exact B. destruct B as (n & X & _). discriminate X.
Qed.

Lemma layer_new_kind lib opens type name k ly : layer_new lib opens type name k = Ok ly -> slen name <= 11 -> name <> ""%string -> layer_kind type name ly /\ ly_rows ly = [].
Proof.
  intros E L Ne. unfold layer_new, shapefile_new, open in E. cbn [ss_seq] in E. destruct (opens 0); [|discriminate E].
  cbn [ss_type ss_fields ss_reclen ss_done List.length obind] in E. unfold add_field_type at 1, field_new in E.
  change (String.eqb "id" "" || (slen "id" >? max_dbf_field_name_length)) with false in E. cbv iota in E.
  change (12 >? max_dbf_field_length) with false in E. cbv iota in E. unfold add_field at 1 in E. cbn [ss_fields List.length ss_cur] in E.
  change (Z.of_nat 0 <? max_dbf_fields) with true in E. cbv iota in E. destruct (lib k); [|discriminate E]. cbn [obind] in E.
  unfold add_field_type, field_new in E. destruct (String.eqb_spec name "") as [X|_]; [contradiction|]. cbn [orb] in E.
  unfold max_dbf_field_name_length in E. rewrite Z.gtb_ltb, (proj2 (Z.ltb_ge _ _)) in E by lia. change (30 >? max_dbf_field_length) with false in E. cbv iota in E.
  unfold add_field in E. cbn [ss_fields app List.length ss_cur] in E. change (Z.of_nat 1 <? max_dbf_fields) with true in E. cbv iota in E.
  destruct (lib (S k)); [|discriminate E]. cbn [obind] in E. injection E as <-. split; [split; reflexivity|reflexivity].
Qed.
Lemma toshape_new_kinds {P N} lib op ol (p0 : P) (n0 : N) s : toshape_new lib op ol p0 n0 = Ok s ->
  kinds s /\ ly_rows (t_points s) = [] /\ ly_rows (t_lines s) = [] /\ t_stores s = (p0, n0).
Proof.
  unfold toshape_new. intros E.
  destruct (layer_new lib op SHPT_POINT "operator" 0) as [a|e| |] eqn:A; try discriminate E. cbn [obind] in E.
  destruct (layer_new lib ol SHPT_ARC "type" 2) as [b|e| |] eqn:B; try discriminate E. cbn [obind] in E. injection E as <-.
  apply layer_new_kind in A as [KA RA]; [|cbn; lia|discriminate]. apply layer_new_kind in B as [KB RB]; [|cbn; lia|discriminate].
  split; [split; assumption|]. auto.
Qed.
Lemma toshape_acts {P N} pset pget nset nget lib op ol c (s : tstate P N) : (forall o, c <> CObj o) -> toshape pset pget nset nget lib op ol c s = (s, None).
Proof. intros H. destruct c as [|t|o|t|a|]; try reflexivity. destruct (H o eq_refl). Qed.
