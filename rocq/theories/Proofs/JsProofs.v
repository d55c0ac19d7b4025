(** Javascript views of objects and geometries. *)
From Coq Require Import Reals.
From Flocq Require Import IEEE754.Binary.
From Verif Require Import Base.Prelude Model.Osm Model.Float Model.Time Model.Geom Model.Wkt Model.Unicode Model.Js
  Spec.TimeSpec Spec.FloatSpec Spec.UnicodeSpec Spec.GeomSpec Spec.WktSpec Spec.JsSpec
  Proofs.TimeProofs Proofs.FloatProofs Proofs.GeomProofs Proofs.WktProofs Proofs.UnicodeProofs.
Local Open Scope Z_scope.

(* ---- arrays ---- *)
Lemma arr_set_mid a x r v : arr_set (a ++ x :: r) (List.length a) v = a ++ v :: r.
Proof. induction a; [reflexivity|]. cbn [app List.length arr_set]. now rewrite IHa. Qed.
Lemma arr_set_end a v : arr_set a (List.length a) v = a ++ [v].
Proof. induction a; [reflexivity|]. cbn [app List.length arr_set]. now rewrite IHa. Qed.
Lemma arr_set_repeat a k v : arr_set (a ++ repeat JUndef k) (List.length a) v = (a ++ [v]) ++ repeat JUndef (k - 1).
Proof.
  destruct k; cbn [repeat].
  - rewrite !app_nil_r. apply arr_set_end.
  - rewrite arr_set_mid, <- app_assoc. cbn. now rewrite Nat.sub_0_r.
Qed.
Lemma js_position_pair p : js_position p = pair_array (lonlat p).
Proof. reflexivity. Qed.
Lemma forward_loop max ns : forall i a, i = Z.of_nat (List.length a) ->
  set_positions false max i ns (a ++ repeat JUndef (List.length ns)) = a ++ map (fun n => pair_array (lonlat (wn_pos n))) ns.
Proof.
  induction ns as [|n r IH]; intros i a E; cbn [set_positions map List.length]; [cbn; now rewrite app_nil_r|].
  replace (Z.to_nat i) with (List.length a) by lia. rewrite arr_set_repeat. cbn [Nat.sub]. rewrite Nat.sub_0_r.
  rewrite IH by (rewrite app_length; cbn [List.length]; lia). now rewrite <- app_assoc.
Qed.
Lemma repeat_snoc {A} (x : A) n : repeat x (S n) = repeat x n ++ [x].
Proof. induction n; [reflexivity|]. cbn [repeat app] in *. now rewrite <- IHn. Qed.
Lemma backward_loop max ns : forall i b, max - i = Z.of_nat (List.length ns) - 1 ->
  set_positions true max i ns (repeat JUndef (List.length ns) ++ b) = rev (map (fun n => pair_array (lonlat (wn_pos n))) ns) ++ b.
Proof.
  induction ns as [|n r IH]; intros i b E; cbn [set_positions map List.length rev]; [reflexivity|].
  rewrite repeat_snoc, <- app_assoc. cbn [app].
  replace (Z.to_nat (max - i)) with (List.length (repeat JUndef (List.length r))) by (rewrite repeat_length; cbn [List.length] in E; lia).
  rewrite arr_set_mid. rewrite IH by (cbn [List.length] in E; lia). now rewrite <- app_assoc.
Qed.
Lemma nodes_ok g : fw_nodes g <> [] -> nodes_array g = Ok (coords_array (map lonlat (positions (line_order g)))).
Proof.
  intros N. unfold nodes_array, nnodes. destruct (Z.eqb_spec (Z.of_nat (List.length (fw_nodes g))) 0) as [E|_].
  { destruct (fw_nodes g); [congruence|cbn in E; lia]. }
  unfold coords_array, line_order, positions, arr_new. rewrite Nat2Z.id, !map_map. do 2 f_equal. destruct (fw_reverse g).
  - rewrite <- (app_nil_r (repeat _ _)). rewrite backward_loop by lia. now rewrite app_nil_r, map_rev.
  - now apply (forward_loop _ _ 0 []).
Qed.
Theorem views : (forall p, js_to_array (JPoint p) = Ok (pair_array (lonlat p))) /\
  (forall ns r, ns <> [] -> js_to_array (JLine (mkFW ns r)) = Ok (coords_array (map lonlat (if r then rev (positions ns) else positions ns)))) /\
  (forall ns r, ns <> [] -> js_to_array (JPoly (mkFW ns r)) = Ok (JArr [coords_array (map lonlat (if r then rev (positions ns) else positions ns))])).
Proof.
  assert (P : forall ns r, positions (line_order (mkFW ns r)) = if r then rev (positions ns) else positions ns).
  { intros ns []; unfold line_order, positions; cbn; [now rewrite map_rev|reflexivity]. }
  repeat split; intros ns r N; cbn [js_to_array].
  - unfold line_to_array. rewrite nodes_ok by exact N. now rewrite P.
  - unfold poly_to_array. rewrite nodes_ok by exact N. now rewrite P.
Qed.
Theorem empty_view r : js_to_array (JLine (mkFW [] r)) = UB.
Proof. reflexivity. Qed.

(* ---- multipolygons ---- *)
Lemma ring_loop_ok cs : forall a, ring_loop (List.length a) cs (a ++ repeat JUndef (List.length cs)) = a ++ map pair_array cs.
Proof.
  induction cs as [|c r IH]; intros a; cbn [ring_loop map List.length]; [cbn; now rewrite app_nil_r|].
  rewrite arr_set_repeat. cbn [Nat.sub]. rewrite Nat.sub_0_r. specialize (IH (a ++ [js_coord (fst c) (snd c)])).
  rewrite app_length in IH. cbn [List.length] in IH. rewrite Nat.add_1_r in IH. rewrite IH. now rewrite <- app_assoc.
Qed.
Lemma ring_ok cs : ring_as_array cs = coords_array cs.
Proof. unfold ring_as_array, coords_array, arr_new. rewrite Nat2Z.id. f_equal. exact (ring_loop_ok cs []). Qed.
Lemma rings_loop_ok hs : forall a k, (k <= List.length hs)%nat -> rings_loop (List.length a) hs (a ++ repeat JUndef k) = a ++ map coords_array hs.
Proof.
  induction hs as [|h r IH]; intros a k L; cbn [rings_loop map List.length] in *.
  - replace k with 0%nat by lia. reflexivity.
  - rewrite arr_set_repeat, ring_ok. specialize (IH (a ++ [coords_array h]) (k - 1)%nat ltac:(lia)).
    rewrite app_length in IH. cbn [List.length] in IH. rewrite Nat.add_1_r in IH. rewrite IH. now rewrite <- app_assoc.
Qed.
Lemma polygon_ok r : polygon_array (polygon_of r) = Ok (rings_array r).
Proof.
  destruct r as [e hs]. unfold polygon_of, rings_array. cbn [polygon_array fst snd]. unfold arr_new. rewrite Nat2Z.id. do 2 f_equal.
  pose proof (arr_set_repeat [] (List.length hs) (ring_as_array e)) as E. cbn [app List.length] in E. rewrite E.
  pose proof (rings_loop_ok hs [ring_as_array e] (List.length hs - 1) ltac:(lia)) as L. cbn [List.length app] in L. rewrite L. cbn [map]. now rewrite ring_ok.
Qed.
Lemma polygons_loop_ok rs : forall a, polygons_loop (List.length a) (map polygon_of rs) (a ++ repeat JUndef (List.length rs)) = Ok (a ++ map rings_array rs).
Proof.
  induction rs as [|p r IH]; intros a; cbn [polygons_loop map List.length]; [cbn; now rewrite app_nil_r|].
  rewrite polygon_ok. cbn [obind]. rewrite arr_set_repeat. cbn [Nat.sub]. rewrite Nat.sub_0_r.
  specialize (IH (a ++ [rings_array p])). rewrite app_length in IH. cbn [List.length] in IH. rewrite Nat.add_1_r in IH. rewrite IH. now rewrite <- app_assoc.
Qed.
Theorem multipolygon_view rs : multipolygon_to_array (map polygon_of rs) = Ok (JArr (map rings_array rs)).
Proof. unfold multipolygon_to_array, arr_new. rewrite map_length, Nat2Z.id. pose proof (polygons_loop_ok rs []) as E. cbn [List.length app] in E. now rewrite E. Qed.

(* ---- geometries of objects ---- *)
Lemma last_of {A} (l : list A) n d : last (l ++ [n]) d = n.
Proof. induction l as [|x l IH]; [reflexivity|]. cbn [app last]. rewrite IH. destruct l; reflexivity. Qed.
Lemma has_position_iff ns : wnl_has_position ns = true <-> last_known ns.
Proof.
  unfold last_known. split.
  - destruct ns as [|n r]; [discriminate|]. cbn [wnl_has_position]. intros H.
    destruct (exists_last (l := n :: r)) as (l & m & E); [discriminate|]. exists l, m. split; [exact E|].
    destruct l; cbn [app] in E; inversion E; subst; [exact H|]. rewrite last_of in H. exact H.
  - intros (l & n & -> & H). destruct l; cbn [app wnl_has_position]; [exact H|]. rewrite last_of. exact H.
Qed.
Lemma closed_iff ns : ns <> [] -> is_closed ns = Ok true /\ same_ends ns \/ is_closed ns = Ok false /\ ~ same_ends ns.
Proof.
  destruct ns as [|n r]; [congruence|]. intros _. cbn [is_closed].
  destruct (exists_last (l := n :: r)) as (l & m & E); [discriminate|].
  destruct l as [|x l]; cbn [app] in E; inversion E; subst.
  - left. cbn. rewrite Z.eqb_refl. split; [reflexivity|]. exists m, [], m. now right.
  - rewrite last_of. destruct (Z.eqb_spec (wn_ref x) (wn_ref m)) as [E1|N]; [left|right]; (split; [reflexivity|]).
    + exists x, l, m. left. auto.
    + intros (a & l' & b & [[E1 E2]|E1]); inversion E1; subst.
      * apply app_inj_tail in H1. destruct H1. subst. congruence.
      * destruct l; discriminate.
Qed.
Theorem node_geometry n : js_to_array (js_node_geom n) = Ok (pair_array (lonlat (n_pos n))).
Proof. reflexivity. Qed.
Lemma known_not_nil ns : last_known ns -> ns <> [].
Proof. intros (l & n & -> & _) X. destruct l; discriminate. Qed.
Theorem way_geometry w r :
  (last_known (w_nodes w) -> js_to_array (js_way_geom r w) =
     Ok (coords_array (map lonlat (if r then rev (positions (w_nodes w)) else positions (w_nodes w))))) /\
  (~ last_known (w_nodes w) -> js_way_geom r w = JNullGeom).
Proof.
  unfold js_way_geom. pose proof (has_position_iff (w_nodes w)) as I. destruct (wnl_has_position (w_nodes w)).
  - split; [|intros X; exfalso; apply X; now apply I]. intros K. apply views. now apply known_not_nil.
  - split; [|reflexivity]. intros K. apply I in K. discriminate.
Qed.
Theorem polygon_geometry w :
  (last_known (w_nodes w) -> same_ends (w_nodes w) -> exists g, js_polygon_geom w = Ok g /\
     js_to_array g = Ok (JArr [coords_array (map lonlat (positions (w_nodes w)))])) /\
  (~ (last_known (w_nodes w) /\ same_ends (w_nodes w)) -> js_polygon_geom w = Ok JNullGeom).
Proof.
  unfold js_polygon_geom. pose proof (has_position_iff (w_nodes w)) as I. destruct (wnl_has_position (w_nodes w)).
  - assert (K : last_known (w_nodes w)) by now apply I. pose proof (known_not_nil _ K) as N.
    destruct (closed_iff _ N) as [[C S]|[C S]]; rewrite C; cbn [obind].
    + split; [|tauto]. intros _ _. unfold polygon_new. rewrite C. cbn [obind]. eexists. split; [reflexivity|]. now apply views.
    + split; [tauto|reflexivity].
  - split; [|reflexivity]. intros K. apply I in K. discriminate.
Qed.

(* ---- numbers ---- *)
Theorem id_exact z : Z.abs z <= 9007199254740992 -> exists d, js_id z = JNum d /\ fin d = true /\ val d = IZR z.
Proof. intros H. exists (d_of_Z z). destruct (d_of_Z_spec z H) as [V F]. auto. Qed.
Theorem length_exact {A} (l : list A) : Z.of_nat (List.length l) <= 9007199254740992 ->
  exists d, js_length l = JNum d /\ fin d = true /\ val d = IZR (Z.of_nat (List.length l)).
Proof. intros H. apply (id_exact (Z.of_nat (List.length l))). lia. Qed.
Theorem id_rounded : exists z z', in_i64 z /\ in_i64 z' /\ z <> z' /\ js_id z = js_id z'.
Proof.
  exists 9007199254740992, 9007199254740993. repeat split; try (unfold int64_min, int64_max; lia).
  unfold js_id. f_equal. apply (Binary.B2FF_inj 53 1024). vm_compute. reflexivity.
Qed.
Theorem small_numbers z : 0 <= z <= int32_max -> js_version z = JInt z /\ js_uid z = JInt z.
Proof. intros H. unfold js_version, js_uid. rewrite to_i32_id by (unfold in_i32, int32_min; lia). auto. Qed.
Theorem version_negative : exists z, 0 <= z < 4294967296 /\ js_version z = JInt (-2147483648).
Proof. exists 2147483648. vm_compute. repeat split; discriminate. Qed.
Theorem node_list ns : (forall i n, nth_error ns i = Some n -> js_node_ref ns (Z.of_nat i) = Ok (js_id (wn_ref n))) /\
  (forall i, Z.of_nat (List.length ns) <= i -> js_node_ref ns i = UB).
Proof.
  unfold js_node_ref. split.
  - intros i n E. rewrite Nat2Z.id, E. reflexivity.
  - intros i H. rewrite (proj2 (nth_error_None ns (Z.to_nat i))) by lia. reflexivity.
Qed.
Theorem member_list ms : (forall i m t, nth_error ms i = Some m -> m_role m = utf8 t -> short_text t ->
     js_member ms (Z.of_nat i) = Ok (m_type m, js_id (m_ref m), Ok (utf16 t))) /\
  (forall i, Z.of_nat (List.length ms) <= i -> js_member ms i = UB).
Proof.
  unfold js_member. split.
  - intros i m t E R S. rewrite Nat2Z.id, E. now rewrite (proj2 (user_role t S) m R).
  - intros i H. rewrite (proj2 (nth_error_None ms (Z.to_nat i))) by lia. reflexivity.
Qed.
Lemma indexes_from n : forall i, 0 <= i -> i + Z.of_nat n <= int32_max + 1 -> js_indexes_from i n = map JInt (count_from i n).
Proof.
  induction n; intros i H L; cbn [js_indexes_from count_from map]; [reflexivity|].
  rewrite to_i32_id by (unfold in_i32, int32_min; lia). rewrite IHn by lia. reflexivity.
Qed.
Theorem enumeration {A} (l : list A) : Z.of_nat (List.length l) <= int32_max + 1 -> js_indexes l = JArr (map JInt (count_from 0 (List.length l))).
Proof. intros H. unfold js_indexes. now rewrite indexes_from by lia. Qed.

(* ---- texts ---- *)
Lemma free_no_nul s : free zero s = true -> c_string s = s.
Proof.
  induction s as [|a s IH]; intros F; [reflexivity|]. cbn [free] in F. apply andb_true_iff in F. destruct F as [F1 F2].
  cbn [c_string]. rewrite (IH F2). destruct (Z.eqb_spec (byte_of a) 0) as [E|]; [|reflexivity]. exfalso.
  apply char_byte' in E. subst. discriminate.
Qed.
Lemma ascii_free s : free zero s = true -> js_ascii s = js_text s.
Proof. intros F. unfold js_ascii. rewrite free_no_nul by exact F. reflexivity. Qed.
Lemma list_nul ps : Forall stored_position ps -> free zero (lonlat_list stream_double true ps) = true.
Proof.
  induction 1 as [|p [|q r] S F IH]; [reflexivity| |].
  - rewrite list_one. now apply xy_free.
  - rewrite list_more, free_app. cbn [free]. rewrite IH, xy_free by (try exact S; reflexivity). reflexivity.
Qed.
Lemma srid_nul s : free zero (wkt_srid s) = true.
Proof. destruct s; reflexivity. Qed.
Theorem wkt_view :
  (forall s p, stored_position p -> exists t, js_wkt (point_text s p) = js_text t /\ read_wkt t = Some (s, WPoint p)) /\
  (forall s ns r, Forall stored_position (positions ns) -> exists t, js_wkt (line_text s (mkFW ns r)) = js_text t /\
     read_wkt t = Some (s, WLine (if r then rev (positions ns) else positions ns))) /\
  (forall s ns r, Forall stored_position (positions ns) -> exists t, js_wkt (poly_text s (mkFW ns r)) = js_text t /\
     read_wkt t = Some (s, WPolygon (positions ns))).
Proof.
  split; [|split].
  - intros s p S. exists (point_text s p). split; [|now apply wkt_read]. apply ascii_free. unfold point_text, point_wkt.
    rewrite free_app, srid_nul. cbn [free append]. rewrite !free_app. cbn [free append].
    destruct S as [Sx Sy]. unfold pos_lon, pos_lat.
    rewrite (clean_free zero _ eq_refl (proj2 (stream_coord _ Sx))). rewrite free_app. rewrite (clean_free zero _ eq_refl (proj2 (stream_coord _ Sy))). reflexivity.
  - intros s ns r S. assert (P : positions (line_order (mkFW ns r)) = if r then rev (positions ns) else positions ns).
    { destruct r; unfold line_order, positions; cbn; [now rewrite map_rev|reflexivity]. }
    assert (S' : Forall stored_position (positions (line_order (mkFW ns r)))) by (rewrite P; destruct r; [apply Forall_rev|]; exact S).
    exists (line_text s (mkFW ns r)). split; [|rewrite <- P; now apply wkt_read]. apply ascii_free. unfold line_text, line_wkt.
    rewrite !free_app, srid_nul, list_nul by exact S'. reflexivity.
  - intros s ns r S. exists (poly_text s (mkFW ns r)). split; [|now apply (wkt_read)]. apply ascii_free. unfold poly_text, poly_wkt.
    rewrite !free_app, srid_nul. cbn [fw_nodes]. rewrite list_nul by exact S. reflexivity.
Qed.
Lemma unhex_free : forall n s l, (String.length s <= n)%nat -> unhex s = Some l -> free zero s = true.
Proof.
  induction n as [|n IH]; intros s l L E; destruct s as [|a [|b r]]; try reflexivity; try discriminate; cbn [String.length] in L; [lia|].
  cbn [unhex] in E. destruct (hex_val a) eqn:A; [|discriminate]. destruct (hex_val b) eqn:B; [|discriminate].
  destruct (unhex r) eqn:R; [|discriminate]. cbn [free]. rewrite (IH r _ ltac:(lia) R).
  destruct (Ascii.eqb_spec a zero) as [-> |]; [discriminate|]. destruct (Ascii.eqb_spec b zero) as [-> |]; [discriminate|]. reflexivity.
Qed.
Lemma hex_view_of s l : unhex s = Some l -> js_hexwkb s = js_text s.
Proof. intros E. apply ascii_free. eapply unhex_free; eauto. Qed.
Theorem hex_view :
  (forall s p, exists t l, js_hexwkb (point_hex s p) = js_text t /\ unhex t = Some l /\ read_ewkb l = Some (srid_of s, SPoint (lonlat p))) /\
  (forall s ns r, Z.of_nat (List.length ns) < 4294967296 -> exists t l, js_hexwkb (line_hex s (mkFW ns r)) = js_text t /\ unhex t = Some l /\
     read_ewkb l = Some (srid_of s, SLine (map lonlat (if r then rev (positions ns) else positions ns)))) /\
  (forall s ns r, Z.of_nat (List.length ns) < 4294967296 -> exists t l, js_hexwkb (poly_hex s (mkFW ns r)) = js_text t /\ unhex t = Some l /\
     read_ewkb l = Some (srid_of s, SPoly [map lonlat (positions ns)])).
Proof.
  split; [|split].
  - intros s p. exists (point_hex s p), (point_wkb s p). pose proof (point_hex_ok s p) as H. repeat split; [eapply hex_view_of; eauto|exact H|]. apply point_ok.
  - intros s ns r L. exists (line_hex s (mkFW ns r)), (line_wkb s (mkFW ns r)). pose proof (line_hex_ok s (mkFW ns r)) as H.
    repeat split; [eapply hex_view_of; eauto|exact H|]. rewrite line_ok by exact L. unfold line_order, positions. cbn [fw_reverse fw_nodes].
    destruct r; [rewrite map_rev|]; reflexivity.
  - intros s ns r L. exists (poly_hex s (mkFW ns r)), (poly_wkb s (mkFW ns r)). pose proof (poly_hex_ok s (mkFW ns r)) as H.
    repeat split; [eapply hex_view_of; eauto|exact H|]. now rewrite poly_ok by exact L.
Qed.
Theorem wkb_cut :
  (forall s p, js_wkb (point_wkb s p) = JStr [1; 1]) /\ (forall s g, js_wkb (line_wkb s g) = JStr [1; 2]) /\
  (forall s g, js_wkb (poly_wkb s g) = JStr [1; 3]).
Proof. repeat split; intros [] x; reflexivity. Qed.
Lemma number_nul s : forall a n, digits_from a s = Some n -> free zero s = true.
Proof.
  induction s as [|c s IH]; intros a n E; [reflexivity|]. cbn [digits_from] in E. destruct (digit c) eqn:D; [|discriminate].
  cbn [free]. rewrite (IH _ _ E). destruct (Ascii.eqb_spec c zero) as [-> |]; [discriminate|reflexivity].
Qed.
Lemma iso_nul t s : iso_text t s -> free zero s = true.
Proof.
  intros (n & d & ys & ms & ds & h & hs & mi & mis & se & ses & _ & _ & _ & _ & _ & Y & M & D & H & I & S & ->).
  rewrite !free_app. destruct Y as [_ [_ Y]], M as [_ [_ M]], D as [_ [_ D]], H as [_ [_ H]], I as [_ [_ I]], S as [_ [_ S]].
  rewrite (number_nul _ _ _ Y), (number_nul _ _ _ M), (number_nul _ _ _ D), (number_nul _ _ _ H), (number_nul _ _ _ I), (number_nul _ _ _ S). reflexivity.
Qed.
Theorem time_view t : 1 <= t <= last_time -> exists s, js_timestamp t = Ok (js_text s) /\ iso_text t s.
Proof.
  intros H. destruct (to_iso_spec t H) as (s & E & I). exists s. split; [|exact I]. unfold js_timestamp. rewrite E. cbn [obind].
  f_equal. apply ascii_free. eapply iso_nul; eauto.
Qed.
Theorem unknown_inside : exists w, js_way_geom false w <> JNullGeom /\ (exists n, In n (w_nodes w) /\ pos_defined (wn_pos n) = false).
Proof.
  exists (mkWay attrs_new [mkWN 1 undef_pos; mkWN 2 (mkPos 0 0)]). split; [discriminate|].
  exists (mkWN 1 undef_pos). split; [now left|reflexivity].
Qed.
