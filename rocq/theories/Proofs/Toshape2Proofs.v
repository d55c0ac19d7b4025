(** Proofs about the shapefile export: the files, and when the program gets to its end. *)
From Verif Require Import Base.Prelude Model.Osm Model.Float Model.Geom Model.Shapefile Model.Handler Model.Convert Model.Toshape
  Spec.OsmSpec Spec.HandlerSpec Spec.GeomSpec Spec.ShapefileSpec Spec.ToshapeSpec
  Proofs.OsmProofs Proofs.HandlerProofs Proofs.Handler2Proofs Proofs.GeomProofs Proofs.ShapefileProofs Proofs.Shapefile2Proofs Proofs.ObjectsOnly Proofs.ToshapeProofs.
Local Open Scope Z_scope.

Lemma numbered_snoc type parts rs r : forall k,
  numbered_shapes type parts k (rs ++ [r]) = numbered_shapes type parts k rs ++ [mkShp type parts (Z.of_nat (List.length (row_points r))) (Z.of_nat (k + List.length rs))].
Proof.
  induction rs as [|x rs IH]; intros k; cbn [app numbered_shapes List.length]; [rewrite Nat.add_0_r; reflexivity|].
  rewrite IH. cbn [app]. do 4 f_equal. lia.
Qed.
Definition two_fields (name : string) : list field := [mkField "id" FTDouble 12 0; mkField name FTString 30 0].
Definition filed (type : shptype) (parts : Z) (name : string) (ly : layer) : Prop :=
  layer_kind type name ly /\ exists c, Inv (two_fields name) (ly_shp ly) c /\ shapes_of (ly_shp ly) c = numbered_shapes type parts 0 (ly_rows ly).
Definition small_points (type : shptype) (parts : Z) (ps : list (double * double)) : Prop :=
  let o := mkShp type parts (Z.of_nat (List.length ps)) 0 in sizes_ok o /\ 100 + record_size o <= 2147483647.

Section Files.
  Variable opens : Z -> bool.
  Hypothesis Hopen : forall k, opens k = true.
  Variable lib : nat -> bool.

  Lemma add_geometry_ok s c fs o : Inv fs s c -> sizes_ok o -> s_type o = ss_type s -> s_type o <> SHPT_UNKNOWN -> snd (add_geometry opens s (Some o) true) = Ok tt.
  Proof.
    intros I So T U. unfold add_geometry. rewrite (i_cur _ _ _ I). destruct (shptype_eq _ _) as [_|X]; [|contradiction].
    rewrite (length_thm o So). destruct (esri_record o) as [len|] eqn:El; [|unfold esri_record in El; destruct (s_type o); try discriminate El; contradiction].
    cbv zeta. destruct (_ || _).
    - unfold open. rewrite Hopen. reflexivity.
    - unfold write, count. cbn [ss_cur]. rewrite (i_cur _ _ _ I). reflexivity.
  Qed.
  Lemma add_row_filed type parts name ps id text ly k ly' k' r : type <> SHPT_UNKNOWN -> small_points type parts ps -> filed type parts name ly ->
    add_row lib opens type parts ps id text ly k = (ly', k', r) ->
    filed type parts name ly' /\ ((forall n, lib n = true) -> r = Ok tt).
  Proof.
    intros U [So Sm] (K & c & I & Sh) E.
    destruct (add_row_done _ _ _ _ _ _ _ _ _ _ _ _ _ K U E) as (_ & K' & _).
    unfold filed. split; [split; [exact K'|]|].
    - unfold add_row, lbind, add_shape in E. set (o := mkShp _ _ _ _) in E.
      destruct (add_geometry_inv opens Hopen (two_fields name) (ly_shp ly) c o (lib k) I So Sm) as (s1 & c1 & r1 & G & I1 & T1 & R1).
      rewrite G in E. exists c1.
      assert (Same : forall l, map row_points l = map row_points (match r1 with Ok _ => ly_rows ly ++ [mkRow ps None None] | _ => ly_rows ly end) ->
        Inv (two_fields name) (ly_shp (mkLayer s1 l)) c1 /\ shapes_of (ly_shp (mkLayer s1 l)) c1 = numbered_shapes type parts 0 (ly_rows (mkLayer s1 l))).
      { intros l L. cbn [ly_shp ly_rows]. split; [exact I1|].
        assert (Ext : forall a b k, map row_points a = map row_points b -> numbered_shapes type parts k a = numbered_shapes type parts k b).
        { induction a as [|x a IH]; intros [|y b] q Q; try discriminate Q; [reflexivity|]. cbn [map] in Q. injection Q as Q1 Q2. cbn [numbered_shapes]. rewrite Q1, (IH b (S q) Q2). reflexivity. }
        rewrite (Ext _ _ _ L). destruct R1 as [[-> Es]|[[-> | ->] Es]]; rewrite Es, Sh; try reflexivity. rewrite numbered_snoc. reflexivity. }
      destruct R1 as [[-> _]|[[-> | ->] _]]; try (injection E as <- <- <-; apply Same; reflexivity).
      unfold add_double in E. cbn beta iota zeta in E. destruct (lib (S k)); cbn beta iota zeta in E; [|injection E as <- <- <-; apply Same; reflexivity].
      cbn [ly_rows ly_shp] in E. rewrite change_last_snoc in E. cbn [row_points row_text] in E.
      assert (M : forall a b, map row_points (ly_rows ly ++ [mkRow ps a b]) = map row_points (ly_rows ly ++ [mkRow ps None None])) by (intros; rewrite !map_app; reflexivity).
      destruct text as [v|]; [|injection E as <- <- <-; apply Same; apply M].
      unfold add_truncated in E. cbn [ly_shp] in E. destruct (nth_error _ _) as [f|]; [|injection E as <- <- <-; apply Same; apply M].
      destruct (truncate _ _) as [t|e| |]; try (injection E as <- <- <-; apply Same; apply M).
      unfold add_text in E. cbn [ly_shp ly_rows] in E. rewrite change_last_snoc in E. destruct (lib (S (S k))); injection E as <- <- <-; apply Same; apply M.
    - intros L. unfold add_row, lbind, add_shape in E. set (o := mkShp _ _ _ _) in E.
      pose proof (add_geometry_ok (ly_shp ly) c _ o I So ltac:(symmetry; apply K) U) as G. rewrite (L k) in E.
      destruct (add_geometry opens (ly_shp ly) (Some o) true) as [s1 r1] eqn:A. cbn [snd] in G. subst r1.
      unfold add_double in E. rewrite (L (S k)) in E. cbn [ly_rows ly_shp] in E. destruct text as [v|]; [|injection E as _ _ <-; reflexivity].
      unfold add_truncated in E. cbn [ly_shp] in E. destruct (add_geometry_same _ _ _ _ _ _ A) as [F1 _]. destruct K as [_ KF]. rewrite F1, KF in E. cbn [nth_error f_width] in E.
      destruct (truncate_defined 30 (text_bytes v) ltac:(lia)) as [t Ht]. rewrite Ht in E. unfold add_text in E. rewrite (L (S (S k))) in E. injection E as _ _ <-. reflexivity.
  Qed.
  Lemma filed_files type parts name ly : filed type parts name ly -> layer_files type parts name ly.
  Proof.
    intros (K & c & I & Sh). pose proof I as [J1 J2 J3 J4 J5 J6 J7 J8 J9 J10].
    assert (Ef : all_files (ly_shp ly) = ss_done (ly_shp ly) ++ [c]) by (unfold all_files, Shapefile.close; cbn [ss_done]; rewrite J3; reflexivity).
    unfold layer_files. cbv zeta. rewrite Ef.
    split; [exact Sh|]. split; [|apply J10].
    intros f If. rewrite Forall_forall in J4, J5. split; [|split; [|now apply J4]]; apply in_app_iff in If as [If|[<-|[]]]; try (destruct (J5 f If); assumption); unfold max_file_size in *; lia.
  Qed.
  Lemma layer_new_filed type parts name k ly : layer_new lib opens type name k = Ok ly -> slen name <= 11 -> name <> ""%string -> filed type parts name ly.
  Proof.
    intros E L Ne. destruct (layer_new_kind _ _ _ _ _ _ E L Ne) as [K R]. split; [exact K|]. rewrite R. cbn [numbered_shapes].
    unfold layer_new, shapefile_new, Shapefile.open in E. cbn [ss_seq] in E. rewrite Hopen in E. cbn [ss_type ss_fields ss_reclen ss_done List.length obind] in E.
    set (s0 := mkSS _ _ _ _ _ _ _ _) in E.
    assert (I0 : Inv (ss_fields s0) s0 (mkSF 0 [] [])).
    { constructor; [reflexivity| |reflexivity|repeat constructor|constructor|reflexivity| | | |split; reflexivity].
      - split; [cbn; lia|constructor].
      - split; vm_compute; intros H; discriminate H.
      - split; vm_compute; intros H; discriminate H.
      - split; vm_compute; intros H; discriminate H. }
    destruct (add_type_inv opens Hopen s0 _ "id"%string FTDouble 12 0 (lib k) I0 eq_refl eq_refl ltac:(lia) eq_refl eq_refl) as (s1 & c1 & r1 & E1 & I1 & D1 & S1 & B1 & B1' & T1 & _).
    rewrite E1 in E. destruct r1 as [u| | |]; try discriminate E. cbn [obind] in E.
    destruct (add_type_inv opens Hopen s1 c1 name FTString 30 0 (lib (S k)) I1 D1 S1 ltac:(lia) B1 B1') as (s2 & c2 & r2 & E2 & I2 & D2 & S2 & B2 & B2' & T2 & _).
    rewrite E2 in E. destruct r2 as [u2| | |]; try discriminate E. cbn [obind] in E. injection E as <-. destruct K as [_ KF]. cbn [ly_shp] in KF |- *.
    exists c2. rewrite KF in I2. split; [exact I2|]. unfold shapes_of. rewrite D2. cbn. rewrite S2. reflexivity.
  Qed.
  Lemma layer_new_ok type name k : (forall n, lib n = true) -> slen name <= 11 -> name <> ""%string -> exists ly, layer_new lib opens type name k = Ok ly.
  Proof.
    intros Hl L Ne. unfold layer_new, shapefile_new, Shapefile.open. cbn [ss_seq]. rewrite Hopen. cbn [ss_type ss_fields ss_reclen ss_done List.length obind].
    unfold add_field_type at 1, field_new.
    change (String.eqb "id" "" || (slen "id" >? max_dbf_field_name_length)) with false. cbv iota.
    change (12 >? max_dbf_field_length) with false. cbv iota. unfold add_field at 1. cbn [ss_fields List.length ss_cur].
    change (Z.of_nat 0 <? max_dbf_fields) with true. cbv iota. rewrite (Hl k). cbn [obind].
    unfold add_field_type, field_new. destruct (String.eqb_spec name "") as [X|_]; [contradiction|]. cbn [orb].
    unfold max_dbf_field_name_length. rewrite Z.gtb_ltb, (proj2 (Z.ltb_ge _ _)) by lia. change (30 >? max_dbf_field_length) with false. cbv iota.
    unfold add_field. cbn [ss_fields app List.length ss_cur]. change (Z.of_nat 1 <? max_dbf_fields) with true. cbv iota.
    rewrite (Hl (S k)). cbn [obind]. eauto.
  Qed.
End Files.

Lemma squeeze_length ps : (List.length (squeeze ps) <= List.length ps)%nat.
Proof.
  induction ps as [|p ps IH]; [cbn; lia|]. cbn [squeeze]. destruct ps as [|q ps]; [cbn; lia|]. destruct (pos_eqb p q); cbn [List.length] in *; lia.
Qed.
Lemma one_point_small p : small_points SHPT_POINT 0 [p].
Proof. split; [repeat split; vm_compute; intros H; discriminate H|vm_compute; intros H; discriminate H]. Qed.
Lemma line_small ps : Z.of_nat (List.length ps) <= 134217718 -> small_points SHPT_ARC 1 ps.
Proof.
  intros L. unfold small_points, sizes_ok, record_size, esri_record, int32_max. cbn [s_type s_parts s_vertices]. lia.
Qed.

Section Run.
  Context {P N : Type}.
  Variable pset : Z -> position -> P -> outcome P.
  Variable pget : Z -> P -> outcome position.
  Variable nset : Z -> position -> N -> outcome N.
  Variable nget : Z -> N -> outcome position.
  Variable lib : nat -> bool.
  Variables op ol : Z -> bool.
  Hypothesis Hop : forall k, op k = true.
  Hypothesis Hol : forall k, ol k = true.
  Let h := toshape pset pget nset nget lib op ol.
  Definition all_filed (s : tstate P N) : Prop := filed SHPT_POINT 0 "operator" (t_points s) /\ filed SHPT_ARC 1 "type" (t_lines s).

  Lemma export_node_filed n s s' x : all_filed s -> export_node lib op n s = (s', x) ->
    all_filed s' /\ t_stores s' = t_stores s /\ ((forall k, lib k = true) -> x = None).
  Proof.
    intros [A B] E. unfold export_node in E. destruct (get_value_by_key _ _); [|injection E as <- <-; split; [split; assumption|auto]].
    destruct (String.eqb _ _); [|injection E as <- <-; split; [split; assumption|auto]]. cbv zeta in E.
    destruct (add_row lib op SHPT_POINT 0 _ _ _ (t_points s) (t_calls s)) as [[ly k] r] eqn:R.
    destruct (add_row_filed op Hop lib SHPT_POINT 0 "operator"%string _ _ _ _ _ _ _ _ ltac:(discriminate) (one_point_small _) A R) as [A' Ok']. injection E as <- <-.
    split; [split; assumption|]. split; [reflexivity|]. intros L. rewrite (Ok' L). reflexivity.
  Qed.
  Lemma export_way_filed w s s' x : all_filed s -> consistent (w_nodes w) -> fits_file (OWay w) -> export_way lib ol w s = (s', x) ->
    all_filed s' /\ t_stores s' = t_stores s /\ ((forall k, lib k = true) -> usable (OWay w) -> x = None) /\
    (~ usable (OWay w) -> s' = s /\ x = Some (HExn ERuntime)).
  Proof.
    intros [A B] Co Fi E. unfold export_way in E.
    assert (Us : (wnl_has_position (w_nodes w) = true \/ get_value_by_key (o_tags (w_attrs w)) "highway" = None) <-> usable (OWay w)).
    { unfold usable, highway. split.
      - intros [H|H] (w' & v & X & T); injection X as <-; [|apply tagged_get in T; congruence].
        destruct (exists_last (l := w_nodes w)) as (ns & n & En); [intros E0; rewrite E0 in H; discriminate H|].
        exists w, ns, n. rewrite En, has_position_last in H. auto.
      - intros H. destruct (get_value_by_key (o_tags (w_attrs w)) "highway") as [v|] eqn:G; [|auto]. left.
        destruct H as (w' & ns & n & X & En & D); [exists w, v; split; [reflexivity|apply tagged_get; exact G]|]. injection X as <-. rewrite En, has_position_last. exact D. }
    destruct (get_value_by_key (o_tags (w_attrs w)) "highway") as [v|] eqn:G.
    2:{ injection E as <- <-. split; [split; assumption|]. split; [reflexivity|]. split; [auto|]. intros X. destruct X. apply Us. auto. }
    destruct (wnl_has_position (w_nodes w)) eqn:Hp.
    2:{ unfold line_or_polygon, linestring_new in E. cbn [fw_nodes] in E. rewrite Hp in E. cbn [negb caught] in E. injection E as <- <-.
        split; [split; assumption|]. split; [reflexivity|]. split; [|auto]. intros _ X. apply Us in X as [X|X]; discriminate X. }
    pose proof (shp_thm (linestring_new (w_nodes w) false) Co Hp) as Q. cbn [fw_nodes linestring_new fw_reverse] in Q. cbv zeta in Q. rewrite Q in E. clear Q.
    unfold positions in E. assert (NU : ~ usable (OWay w) -> False) by (intros X; apply X; apply Us; auto).
    destruct (Nat.ltb_spec (List.length (squeeze (map wn_pos (w_nodes w)))) 2) as [L|L].
    - injection E as <- <-. split; [split; assumption|]. split; [reflexivity|]. split; [auto|]. intros X. destruct (NU X).
    - rewrite combine_lonlat in E. cbn [fits_file] in Fi.
      assert (Sm : small_points SHPT_ARC 1 (map lonlat (squeeze (map wn_pos (w_nodes w))))).
      { apply line_small. rewrite map_length. pose proof (squeeze_length (map wn_pos (w_nodes w))) as Q. rewrite map_length in Q. lia. }
      destruct (add_row lib ol SHPT_ARC 1 _ _ _ (t_lines s) (t_calls s)) as [[ly k] r] eqn:R.
      destruct (add_row_filed ol Hol lib SHPT_ARC 1 "type"%string _ _ _ _ _ _ _ _ ltac:(discriminate) Sm B R) as [A' Ok']. injection E as <- <-.
      split; [split; assumption|]. split; [reflexivity|]. split; [intros X _; rewrite (Ok' X); reflexivity|]. intros X. destruct (NU X).
  Qed.

  Lemma toshape_filed os : forall s s' x os' st', cfw_run pset pget nset nget os (t_stores s) = Ok (os', st') -> Forall way_consistent os' -> Forall fits_file os' ->
    all_filed s -> run_objects h os s = (s', x) ->
    all_filed s' /\ ((forall k, lib k = true) -> Forall usable os' -> x = None /\ t_stores s' = st').
  Proof.
    induction os as [|o os IH]; intros s s' x os' st' C W F K E.
    - cbn in C, E. injection C as <- <-. injection E as <- <-. auto.
    - cbn [cfw_run] in C. cbn [run_objects] in E. unfold h at 1 in E. cbn [toshape] in E.
      destruct (cfw_step pset pget nset nget o (t_stores s)) as [[o1 st1]|e| |]; try discriminate C. cbn [obind fst snd] in C.
      destruct (cfw_run pset pget nset nget os st1) as [[r1 st2]|e| |] eqn:C1; try discriminate C. cbn [obind fst snd] in C. injection C as <- <-.
      inversion W as [|? ? W1 W2]; subst. inversion F as [|? ? F1 F2]; subst. cbv zeta in E.
      set (s1 := mkT st1 (t_points s) (t_lines s) (t_calls s)) in E.
      assert (K1 : all_filed s1) by exact K.
      assert (Step : forall s2 y, all_filed s2 /\ t_stores s2 = st1 /\ ((forall k, lib k = true) -> usable o1 -> y = None) ->
        (match y with None => run_objects h os s2 | Some z => (s2, Some z) end) = (s', x) ->
        all_filed s' /\ ((forall k, lib k = true) -> Forall usable (o1 :: r1) -> x = None /\ t_stores s' = st2)).
      { intros s2 y (K2 & S2 & Y) R. destruct y as [y|].
        - injection R as <- <-. split; [exact K2|]. intros L U. inversion U; subst. discriminate (Y L ltac:(assumption)).
        - destruct (IH s2 s' x r1 st2) as [A B]; [rewrite S2; exact C1|exact W2|exact F2|exact K2|exact R|]. split; [exact A|].
          intros L U. inversion U; subst. auto. }
      destruct o1 as [n|w|r].
      + destruct (export_node lib op n s1) as [s2 y] eqn:X. destruct (export_node_filed n s1 s2 y K1 X) as (A & B & D). apply (Step s2 y); [|exact E]. auto.
      + destruct (export_way lib ol w s1) as [s2 y] eqn:X. destruct (export_way_filed w s1 s2 y K1 W1 F1 X) as (A & B & D & _). apply (Step s2 y); [|exact E]. auto.
      + apply (Step s1 None); [|exact E]. auto.
  Qed.
End Run.

(* ---- the program ---- *)
Lemma add_row_stop lib opens type parts ps id text ly k ly' k' r : add_row lib opens type parts ps id text ly k = (ly', k', r) -> r <> Throw EStopReading.
Proof.
  unfold add_row, lbind, add_shape. set (o := mkShp _ _ _ _). destruct (add_geometry opens (ly_shp ly) (Some o) (lib k)) as [s1 r1] eqn:A.
  assert (Q : r1 <> Throw EStopReading).
  { intros ->. unfold add_geometry in A. destruct (ss_cur (ly_shp ly)); [|discriminate A]. destruct (shptype_eq _ _); [|discriminate A].
    destruct (length_on_disk o) as [len|x| |] eqn:L; try discriminate A.
    - cbv zeta in A.
      assert (Wr : forall z ok, snd (write z o ok) <> Throw EStopReading) by (intros z ok; unfold write; destruct (ss_cur z), ok; discriminate).
      destruct (_ || _).
      + destruct (Shapefile.open _ _) as [s2 [|]]; [|discriminate A]. apply (Wr _ _ (f_equal snd A)).
      + apply (Wr _ _ (f_equal snd A)).
    - injection A as _ ->. unfold length_on_disk, imul in L. destruct (s_type o); try (destruct (in_i32b _); discriminate L); try discriminate L.
      all: destruct (in_i32b _); try discriminate L; cbn [obind] in L; destruct (in_i32b _); discriminate L. }
  destruct r1 as [u|e| |]; intros E; try (injection E as _ _ <-; exact Q); try (injection E as _ _ <-; discriminate).
  unfold add_double in E. destruct (lib (S k)); [|injection E as _ _ <-; discriminate]. destruct text as [v|]; [|injection E as _ _ <-; discriminate].
  unfold add_truncated in E. cbn [ly_shp] in E. destruct (nth_error _ _) as [f|]; [|injection E as _ _ <-; discriminate].
  assert (T : forall e, truncate (f_width f) (text_bytes v) <> Throw e) by (intros e; unfold truncate; cbv zeta; repeat match goal with |- context [if ?b then _ else _] => destruct b | |- context [match ?n with O => _ | S _ => _ end] => destruct n end; discriminate).
  destruct (truncate (f_width f) (text_bytes v)) as [t|e| |]; try (injection E as _ _ <-; discriminate); [|destruct (T e eq_refl)].
  unfold add_text in E. destruct (lib (S (S k))); injection E as _ _ <-; discriminate.
Qed.
Lemma caught_stop {A} (r : outcome A) : r <> Throw EStopReading -> caught r <> Some (HExn EStopReading).
Proof. intros N E. destruct r as [a|x| |]; try discriminate E. destruct x; try discriminate E; [destruct N; reflexivity|]. cbn [caught] in E. destruct (n =? 11); discriminate E. Qed.

Lemma app_same_length {A} (a b c d : list A) : a ++ b = c ++ d -> List.length a = List.length c -> a = c /\ b = d.
Proof.
  revert c. induction a as [|x a IH]; intros [|y c] E L; cbn in L; try discriminate L; [auto|]. cbn [app] in E. injection E as <- E.
  destruct (IH c E ltac:(lia)) as [-> ->]. auto.
Qed.

Section Program.
  Context {P N : Type}.
  Variable pset : Z -> position -> P -> outcome P.
  Variable pget : Z -> P -> outcome position.
  Variable nset : Z -> position -> N -> outcome N.
  Variable nget : Z -> N -> outcome position.
  Variables (p0 : P) (n0 : N) (dflt : position) (domp domn : Z -> Prop).
  Hypothesis Sp : store_works pset pget p0 dflt domp.
  Hypothesis Sn : store_works nset nget n0 dflt domn.
  Variable lib : nat -> bool.
  Variables op ol : Z -> bool.
  Variable gs : list (otype * list object).
  Let os := flat_map snd gs.
  Let os' := located_stream [] os dflt.
  Hypothesis Ids : forall o id, In o os -> In id (used_ids o) -> id_ok domp domn id.
  Let h := toshape pset pget nset nget lib op ol.

  Lemma never_stops l : forall s s' x l' st', cfw_run pset pget nset nget l (t_stores s) = Ok (l', st') ->
    run_objects h l s = (s', x) -> x <> Some (HExn EStopReading).
  Proof.
    induction l as [|o l IH]; intros s s' x l' st' C E; cbn [cfw_run] in C; cbn [run_objects] in E; [injection E as _ <-; discriminate|].
    unfold h at 1 in E. cbn [toshape] in E.
    destruct (cfw_step pset pget nset nget o (t_stores s)) as [[o1 st1]|e| |]; try discriminate C. cbn [obind fst snd] in C.
    destruct (cfw_run pset pget nset nget l st1) as [[r1 st2]|e| |] eqn:C1; try discriminate C. cbv zeta in E.
    set (s1 := mkT st1 (t_points s) (t_lines s) (t_calls s)) in E.
    assert (Step : forall s2 y, t_stores s2 = st1 -> y <> Some (HExn EStopReading) ->
      (match y with None => run_objects h l s2 | Some z => (s2, Some z) end) = (s', x) -> x <> Some (HExn EStopReading)).
    { intros s2 [y|] S2 Y R; [injection R as _ <-; exact Y|]. eapply IH; [|exact R]. rewrite S2. exact C1. }
    assert (D : None <> Some (HExn EStopReading)) by discriminate.
    destruct o1 as [n|w|r].
    - unfold export_node in E. destruct (get_value_by_key _ _); [|exact (Step s1 None eq_refl D E)]. destruct (String.eqb _ _); [|exact (Step s1 None eq_refl D E)].
      cbv zeta in E. destruct (add_row _ _ _ _ _ _ _ _ _) as [[ly k] r] eqn:R. apply add_row_stop in R. refine (Step _ (caught r) _ _ E); [reflexivity|]. apply caught_stop. exact R.
    - unfold export_way in E. destruct (get_value_by_key _ _); [|exact (Step s1 None eq_refl D E)].
      destruct (line_or_polygon _) as [[lon lat]|e| |] eqn:L.
      + destruct (add_row _ _ _ _ _ _ _ _ _) as [[ly k] r] eqn:R. apply add_row_stop in R. refine (Step _ (caught r) _ _ E); [reflexivity|]. apply caught_stop. exact R.
      + refine (Step s1 (caught (Throw e)) eq_refl _ E). apply caught_stop. intros Q. injection Q as ->. unfold line_or_polygon in L.
        destruct (negb _); [discriminate L|]. destruct (fw_nodes _) as [|a [|b q]]; try discriminate L. cbv zeta in L. destruct (_ =? _)%nat; discriminate L.
      + exact (Step s1 (Some HUB) eq_refl ltac:(discriminate) E).
      + exact (Step s1 (Some HUB) eq_refl ltac:(discriminate) E).
    - exact (Step s1 None eq_refl D E).
  Qed.

  Lemma toshape_rows s0 s : toshape_new lib op ol p0 n0 = Ok s0 -> input_read h (gs, Ok tt) s0 = (s, None, true) ->
    exported post_box post_box_row os (ly_rows (t_points s)) /\ exported road road_row os' (ly_rows (t_lines s)).
  Proof.
    intros E0 E. destruct (cfw_correct pset pget nset nget p0 n0 dflt domp domn Sp Sn os Ids) as [st C].
    destruct (toshape_new_kinds _ _ _ _ _ _ E0) as (K & R1 & R2 & S0). rewrite <- S0 in C.
    unfold h in E. rewrite (objects_read _ (toshape_acts pset pget nset nget lib op ol)) in E. fold h os in E.
    destruct (run_objects h os s0) as [s1 x] eqn:R. pose proof (never_stops _ _ _ _ _ _ C R) as Ns.
    assert (x = None /\ s1 = s) as [-> ->].
    { cbn [ended] in E. destruct x as [[e|]|]; [destruct e; try discriminate E; destruct (Ns eq_refl)|discriminate E|]. injection E as ->. auto. }
    destruct (toshape_run pset pget nset nget lib op ol os s0 s _ _ C (stream_consistent dflt os []) K R) as (_ & a & b & A & B & EA & EB).
    rewrite A, B, R1, R2. cbn [app]. split; [eapply stream_post_boxes; exact EA|exact EB].
  Qed.

  Hypothesis Hop : forall k, op k = true.
  Hypothesis Hol : forall k, ol k = true.
  Hypothesis Fit : Forall fits_file os.
  Lemma fits_located l : Forall fits_file l -> forall seen, Forall fits_file (located_stream seen l dflt).
  Proof.
    induction 1 as [|o l F _ IH]; intros seen; constructor; [|apply IH]. destruct o as [n|w|r]; cbn [locate fits_file] in *; auto. cbn [w_nodes]. rewrite map_length. exact F.
  Qed.
  Lemma new_filed s0 : toshape_new lib op ol p0 n0 = Ok s0 -> all_filed s0.
  Proof.
    unfold toshape_new. intros E.
    destruct (layer_new lib op SHPT_POINT "operator" 0) as [a|e| |] eqn:A; try discriminate E. cbn [obind] in E.
    destruct (layer_new lib ol SHPT_ARC "type" 2) as [b|e| |] eqn:B; try discriminate E. cbn [obind] in E. injection E as <-.
    split; [eapply layer_new_filed in A|eapply layer_new_filed in B]; try eassumption; try (cbn; lia); try discriminate.
  Qed.
  Lemma toshape_files s0 s r b : toshape_new lib op ol p0 n0 = Ok s0 -> input_read h (gs, Ok tt) s0 = (s, r, b) ->
    layer_files SHPT_POINT 0 "operator" (t_points s) /\ layer_files SHPT_ARC 1 "type" (t_lines s).
  Proof.
    intros E0 E. destruct (cfw_correct pset pget nset nget p0 n0 dflt domp domn Sp Sn os Ids) as [st C].
    destruct (toshape_new_kinds _ _ _ _ _ _ E0) as (K & R1 & R2 & S0). rewrite <- S0 in C.
    unfold h in E. rewrite (objects_read _ (toshape_acts pset pget nset nget lib op ol)) in E. fold h os in E.
    destruct (run_objects h os s0) as [s1 x] eqn:R.
    destruct (toshape_filed pset pget nset nget lib op ol Hop Hol os s0 s1 x _ _ C (stream_consistent dflt os []) (fits_located os Fit []) (new_filed s0 E0) R) as [[A B] _].
    assert (s1 = s) as ->. { cbn [ended] in E. destruct x as [[e|]|]; [destruct e|..]; injection E; intros; subst; reflexivity. }
    split; [apply (filed_files op Hop); exact A|apply (filed_files op Hop); exact B].
  Qed.
  Lemma toshape_completes : (forall k, lib k = true) -> Forall usable os' ->
    exists s0 s, toshape_new lib op ol p0 n0 = Ok s0 /\ input_read h (gs, Ok tt) s0 = (s, None, true).
  Proof.
    intros L U. destruct (layer_new_ok op Hop lib SHPT_POINT "operator" 0 L ltac:(cbn; lia) ltac:(discriminate)) as [a A].
    destruct (layer_new_ok ol Hol lib SHPT_ARC "type" 2 L ltac:(cbn; lia) ltac:(discriminate)) as [b B].
    exists (mkT (p0, n0) a b 4). assert (E0 : toshape_new lib op ol p0 n0 = Ok (mkT (p0, n0) a b 4)) by (unfold toshape_new; rewrite A; cbn [obind]; rewrite B; reflexivity).
    destruct (cfw_correct pset pget nset nget p0 n0 dflt domp domn Sp Sn os Ids) as [st C].
    destruct (run_objects h os (mkT (p0, n0) a b 4)) as [s1 x] eqn:R.
    destruct (toshape_filed pset pget nset nget lib op ol Hop Hol os (mkT (p0, n0) a b 4) s1 x _ _ C (stream_consistent dflt os []) (fits_located os Fit []) (new_filed _ E0) R) as [_ F].
    destruct (F L U) as [-> _]. exists s1. split; [exact E0|].
    unfold h. rewrite (objects_read _ (toshape_acts pset pget nset nget lib op ol)). fold h os. rewrite R. reflexivity.
  Qed.
  (** the first highway that is not usable ends the program *)
  Lemma cfw_run_app l1 l2 s : cfw_run pset pget nset nget (l1 ++ l2) s =
    let! a := cfw_run pset pget nset nget l1 s in let! b := cfw_run pset pget nset nget l2 (snd a) in Ok (fst a ++ fst b, snd b).
  Proof.
    revert s. induction l1 as [|o l1 IH]; intros s; cbn [app cfw_run obind fst snd].
    - destruct (cfw_run _ _ _ _ l2 s) as [[x y]| | |]; reflexivity.
    - destruct (cfw_step _ _ _ _ o s) as [[o1 st1]| | |]; cbn [obind fst snd]; try reflexivity. rewrite IH.
      destruct (cfw_run _ _ _ _ l1 st1) as [[x y]| | |]; cbn [obind fst snd]; try reflexivity.
      destruct (cfw_run _ _ _ _ l2 y) as [[u v]| | |]; reflexivity.
  Qed.
  Lemma located_app l1 l2 : forall seen, located_stream seen (l1 ++ l2) dflt = located_stream seen l1 dflt ++ located_stream (seen ++ l1) l2 dflt.
  Proof.
    induction l1 as [|o l1 IH]; intros seen; cbn [app located_stream]; [rewrite app_nil_r; reflexivity|]. rewrite IH, <- app_assoc. reflexivity.
  Qed.
  Lemma located_length l : forall seen, List.length (located_stream seen l dflt) = List.length l.
  Proof. induction l as [|o l IH]; intros seen; cbn [located_stream List.length]; [reflexivity|]. rewrite IH. reflexivity. Qed.
  Lemma toshape_stopped l1 o l2 : (forall k, lib k = true) -> os = l1 ++ o :: l2 -> Forall usable (located_stream [] l1 dflt) -> ~ usable (locate l1 dflt o) ->
    exists s0 s, toshape_new lib op ol p0 n0 = Ok s0 /\ input_read h (gs, Ok tt) s0 = (s, Some (HExn ERuntime), false) /\
      exported post_box post_box_row l1 (ly_rows (t_points s)) /\ exported road road_row (located_stream [] l1 dflt) (ly_rows (t_lines s)).
  Proof.
    intros L Eo U Nu. destruct (layer_new_ok op Hop lib SHPT_POINT "operator" 0 L ltac:(cbn; lia) ltac:(discriminate)) as [a A].
    destruct (layer_new_ok ol Hol lib SHPT_ARC "type" 2 L ltac:(cbn; lia) ltac:(discriminate)) as [b B].
    exists (mkT (p0, n0) a b 4). assert (E0 : toshape_new lib op ol p0 n0 = Ok (mkT (p0, n0) a b 4)) by (unfold toshape_new; rewrite A; cbn [obind]; rewrite B; reflexivity).
    destruct (toshape_new_kinds _ _ _ _ _ _ E0) as (K & R1 & R2 & S0).
    destruct (cfw_correct pset pget nset nget p0 n0 dflt domp domn Sp Sn os Ids) as [st C].
    rewrite Eo, cfw_run_app, located_app in C.
    destruct (cfw_run pset pget nset nget l1 (p0, n0)) as [[x1 st1]| | |] eqn:C1; try discriminate C. cbn [obind fst snd] in C.
    destruct (cfw_run pset pget nset nget (o :: l2) st1) as [[x2 st2]| | |] eqn:C2; try discriminate C. cbn [obind fst snd] in C. injection C as Cx Cs.
    assert (x1 = located_stream [] l1 dflt /\ x2 = locate l1 dflt o :: located_stream (l1 ++ [o]) l2 dflt) as [-> ->].
    { assert (Q : List.length x1 = List.length l1).
      { clear - C1. revert x1 st1 C1. generalize (p0, n0). induction l1 as [|q l1 IH]; intros s0 x1 st1 C1; cbn [cfw_run] in C1; [injection C1 as <- _; reflexivity|].
        destruct (cfw_step _ _ _ _ q s0) as [[o1 z]| | |]; try discriminate C1. cbn [obind fst snd] in C1. destruct (cfw_run pset pget nset nget l1 z) as [[r v]| | |] eqn:Cr; try discriminate C1.
        cbn [obind fst snd] in C1. injection C1 as <- _. cbn [List.length]. rewrite (IH _ _ _ Cr). reflexivity. }
      apply app_same_length in Cx; [exact Cx|]. rewrite Q, located_length. reflexivity. }
    destruct (run_objects h l1 (mkT (p0, n0) a b 4)) as [s1 x] eqn:R.
    assert (F1 : Forall fits_file (located_stream [] l1 dflt) /\ fits_file (locate l1 dflt o)).
    { pose proof (fits_located os Fit []) as F. rewrite Eo, located_app in F. apply Forall_app in F as [F F']. split; [exact F|]. inversion F'; subst. assumption. }
    destruct (toshape_filed pset pget nset nget lib op ol Hop Hol l1 (mkT (p0, n0) a b 4) s1 x _ _ C1 (stream_consistent dflt l1 []) (proj1 F1) (new_filed _ E0) R) as [K1 F].
    destruct (F L U) as [-> Q1].
    destruct (toshape_run pset pget nset nget lib op ol l1 (mkT (p0, n0) a b 4) s1 _ _ C1 (stream_consistent dflt l1 []) K R) as (_ & ra & rb & RA & RB & EA & EB).
    cbn [cfw_run] in C2. destruct (cfw_step pset pget nset nget o st1) as [[o1 st3]| | |] eqn:Cs1; try discriminate C2. cbn [obind fst snd] in C2.
    destruct (cfw_run pset pget nset nget l2 st3) as [[r1 st4]| | |]; try discriminate C2. cbn [obind fst snd] in C2. injection C2 as -> _ _.
    pose proof (located_consistent l1 dflt o) as Wc. destruct F1 as [_ F1]. destruct (locate l1 dflt o) as [n|w|r] eqn:Lo.
    1,3: exfalso; apply Nu; intros (w & v & X & _); discriminate X.
    set (s2 := mkT st3 (t_points s1) (t_lines s1) (t_calls s1)). exists s2. split; [exact E0|].
    assert (X : export_way lib ol w s2 = (s2, Some (HExn ERuntime))).
    { destruct (export_way lib ol w s2) as [s3 y] eqn:X.
      destruct (export_way_filed pset pget nset nget lib op ol Hol w s2 s3 y K1 Wc F1 X) as (_ & _ & _ & Z). destruct (Z Nu) as [-> ->]. reflexivity. }
    split; [|unfold s2; cbn [t_points t_lines]; rewrite RA, RB, R1, R2; cbn [app]; split; [eapply stream_post_boxes; exact EA|exact EB]].
    unfold h. rewrite (objects_read _ (toshape_acts pset pget nset nget lib op ol)). fold h os. rewrite Eo, run_objects_app, R. cbn [run_objects]. unfold h at 1. cbn [toshape].
    rewrite Q1, Cs1. cbv zeta. fold s2. rewrite X. reflexivity.
  Qed.
End Program.
