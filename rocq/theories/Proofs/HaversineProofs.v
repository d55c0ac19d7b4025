(** Proofs about Model/Haversine.v over the real numbers. *)
From Coq Require Import Reals Lra Psatz Rtrigo Ratan.
From Verif Require Import Base.Prelude Model.Osm Model.Float Model.Haversine Spec.HaversineSpec.
Local Open Scope R_scope.

Lemma sphere_unit p : dot (on_sphere p) (on_sphere p) = 1.
Proof.
  unfold dot, on_sphere. cbn [vx vy vz]. set (l := r_lon p * r_deg_to_rad). set (f := r_lat p * r_deg_to_rad).
  pose proof (sin2_cos2 l) as Hl. pose proof (sin2_cos2 f) as Hf. unfold Rsqr in *. nra.
Qed.
Lemma cauchy u v : dot u v * dot u v <= dot u u * dot v v.
Proof.
  unfold dot. destruct u as [a b c], v as [x y z]. cbn [vx vy vz].
  pose proof (Rle_0_sqr (a * y - b * x)). pose proof (Rle_0_sqr (a * z - c * x)). pose proof (Rle_0_sqr (b * z - c * y)). unfold Rsqr in *. nra.
Qed.
Lemma sphere_dot p q : -1 <= dot (on_sphere p) (on_sphere q) <= 1.
Proof. pose proof (cauchy (on_sphere p) (on_sphere q)) as H. rewrite !sphere_unit in H. nra. Qed.
Lemma dot_comm u v : dot u v = dot v u.
Proof. unfold dot. ring. Qed.

Lemma radius_pos : 0 < r_radius.
Proof. unfold r_radius. lra. Qed.

(** the argument of the square root *)
Lemma hav_arg a1 f1 a2 f2 : let l := sin ((a1 - a2) * / 2) in let t := sin ((f1 - f2) * / 2) in
  1 - 2 * (t * t + cos f1 * cos f2 * (l * l)) = cos f1 * cos a1 * (cos f2 * cos a2) + cos f1 * sin a1 * (cos f2 * sin a2) + sin f1 * sin f2.
Proof.
  cbn zeta.
  assert (E : forall x, 2 * (sin (x * / 2) * sin (x * / 2)) = 1 - cos x).
  { intros x. replace (cos x) with (cos (2 * (x * / 2))) by (f_equal; field). rewrite cos_2a_sin. ring. }
  pose proof (E (a1 - a2)) as Ea. pose proof (E (f1 - f2)) as Ef. rewrite cos_minus in Ea, Ef.
  set (l := sin ((a1 - a2) * / 2)) in *. set (t := sin ((f1 - f2) * / 2)) in *.
  replace (1 - 2 * (t * t + cos f1 * cos f2 * (l * l))) with (1 - 2 * (t * t) - cos f1 * cos f2 * (2 * (l * l))) by ring.
  rewrite Ea, Ef. ring.
Qed.
Lemma asin_acos h : 0 <= h <= 1 -> 2 * asin (sqrt h) = acos (1 - 2 * h).
Proof.
  intros H. assert (S : 0 <= sqrt h <= 1).
  { split; [apply sqrt_pos|]. rewrite <- sqrt_1. apply sqrt_le_1; lra. }
  rewrite <- (acos_cos (2 * asin (sqrt h))).
  - rewrite cos_2a_sin, sin_asin by lra. f_equal. rewrite Rmult_assoc, sqrt_sqrt by lra. reflexivity.
  - assert (0 <= asin (sqrt h) <= PI / 2); [|lra]. split; [|apply asin_bound].
    destruct (Req_dec (sqrt h) 0) as [->|N]; [rewrite asin_0; lra|].
    destruct (Rle_or_lt 0 (asin (sqrt h))) as [|L]; auto. exfalso.
    assert (sin (asin (sqrt h)) < 0); [|rewrite sin_asin in *; lra].
    pose proof (asin_bound (sqrt h)). pose proof PI_RGT_0. apply sin_lt_0_var; lra.
Qed.
Lemma distance_great_circle p q : r_distance p q = great_circle p q.
Proof.
  unfold r_distance, pos_distance, hav_distance, great_circle. cbn zeta.
  replace ((r_lon p - r_lon q) * r_deg_to_rad) with (r_lon p * r_deg_to_rad - r_lon q * r_deg_to_rad) by ring.
  replace ((r_lat p - r_lat q) * r_deg_to_rad) with (r_lat p * r_deg_to_rad - r_lat q * r_deg_to_rad) by ring.
  pose proof (hav_arg (r_lon p * r_deg_to_rad) (r_lat p * r_deg_to_rad) (r_lon q * r_deg_to_rad) (r_lat q * r_deg_to_rad)) as H. cbn zeta in H.
  pose proof (sphere_dot p q) as B. unfold dot, on_sphere in *. cbn [vx vy vz] in *. rewrite <- H in *.
  set (h := sin _ * sin _ + _) in *. rewrite <- asin_acos by lra. ring.
Qed.

Lemma great_circle_sym p q : great_circle p q = great_circle q p.
Proof. unfold great_circle. now rewrite dot_comm. Qed.
Lemma great_circle_bounds p q : 0 <= great_circle p q <= PI * r_radius.
Proof. unfold great_circle. pose proof (acos_bound (dot (on_sphere p) (on_sphere q))). pose proof radius_pos. nra. Qed.
Lemma great_circle_refl p : great_circle p p = 0.
Proof. unfold great_circle. rewrite sphere_unit, acos_1. ring. Qed.
Lemma great_circle_zero p q : great_circle p q = 0 -> on_sphere p = on_sphere q.
Proof.
  unfold great_circle. intros H. pose proof radius_pos as Rp.
  assert (A : acos (dot (on_sphere p) (on_sphere q)) = 0) by (apply Rmult_integral in H as [H|H]; lra).
  assert (D : dot (on_sphere p) (on_sphere q) = 1).
  { rewrite <- (cos_acos (dot (on_sphere p) (on_sphere q))) by apply sphere_dot. rewrite A. apply cos_0. }
  pose proof (sphere_unit p) as Up. pose proof (sphere_unit q) as Uq. unfold dot in *. destruct (on_sphere p) as [a b c], (on_sphere q) as [x y z]. cbn [vx vy vz] in *.
  assert (Q : (a - x) * (a - x) + (b - y) * (b - y) + (c - z) * (c - z) = 0) by nra.
  pose proof (Rle_0_sqr (a - x)) as P1. pose proof (Rle_0_sqr (b - y)) as P2. pose proof (Rle_0_sqr (c - z)) as P3. unfold Rsqr in *.
  assert (a = x) by (apply Rminus_diag_uniq, Rsqr_0_uniq; unfold Rsqr; lra). assert (b = y) by (apply Rminus_diag_uniq, Rsqr_0_uniq; unfold Rsqr; lra).
  assert (c = z) by (apply Rminus_diag_uniq, Rsqr_0_uniq; unfold Rsqr; lra). subst. reflexivity.
Qed.

(** the triangle inequality *)
Lemma angle_triangle u v w : dot u u = 1 -> dot v v = 1 -> dot w w = 1 -> acos (dot u w) <= acos (dot u v) + acos (dot v w).
Proof.
  intros Hu Hv Hw.
  assert (B : forall a b, dot a a = 1 -> dot b b = 1 -> -1 <= dot a b <= 1) by (intros a b Ha Hb; pose proof (cauchy a b) as H; rewrite Ha, Hb in H; nra).
  pose proof (B u v Hu Hv) as Buv. pose proof (B v w Hv Hw) as Bvw. pose proof (B u w Hu Hw) as Buw.
  pose proof (acos_bound (dot u v)) as A1. pose proof (acos_bound (dot v w)) as A2. pose proof (acos_bound (dot u w)) as A3.
  destruct (Rle_or_lt PI (acos (dot u v) + acos (dot v w))) as [L|L]; [lra|].
  apply cos_decr_0; try lra. rewrite cos_plus, !cos_acos by assumption.
  rewrite !sin_acos by assumption.
  set (a := mkVec (vx u - dot u v * vx v) (vy u - dot u v * vy v) (vz u - dot u v * vz v)).
  set (b := mkVec (vx w - dot v w * vx v) (vy w - dot v w * vy v) (vz w - dot v w * vz v)).
  assert (Eab : dot a b = dot u w - dot u v * dot v w).
  { transitivity (dot u w - dot u v * dot v w - dot u v * dot v w + dot u v * dot v w * dot v v); [|rewrite Hv; ring].
    unfold a, b, dot. cbn [vx vy vz]. ring. }
  assert (Eaa : dot a a = 1 - dot u v * dot u v).
  { transitivity (dot u u - 2 * dot u v * dot u v + dot u v * dot u v * dot v v); [|rewrite Hu, Hv; ring]. unfold a, dot. cbn [vx vy vz]. ring. }
  assert (Ebb : dot b b = 1 - dot v w * dot v w).
  { transitivity (dot w w - 2 * dot v w * dot v w + dot v w * dot v w * dot v v); [|rewrite Hw, Hv; ring]. unfold b, dot. cbn [vx vy vz]. ring. }
  pose proof (cauchy a b) as C. rewrite Eab, Eaa, Ebb in C.
  unfold Rsqr. set (s := sqrt (1 - dot u v * dot u v)). set (t := sqrt (1 - dot v w * dot v w)).
  assert (Ss : s * s = 1 - dot u v * dot u v) by (apply sqrt_sqrt; nra). assert (Tt : t * t = 1 - dot v w * dot v w) by (apply sqrt_sqrt; nra).
  assert (0 <= s) by apply sqrt_pos. assert (0 <= t) by apply sqrt_pos.
  rewrite <- Ss, <- Tt in C.
  assert (Rabs (dot u w - dot u v * dot v w) <= s * t).
  { apply Rsqr_incr_0_var; [|nra]. rewrite <- Rsqr_abs. unfold Rsqr. nra. }
  pose proof (Rle_abs (- (dot u w - dot u v * dot v w))) as Ra. rewrite Rabs_Ropp in Ra. lra.
Qed.
Lemma great_circle_triangle p q r : great_circle p r <= great_circle p q + great_circle q r.
Proof.
  unfold great_circle. pose proof (angle_triangle (on_sphere p) (on_sphere q) (on_sphere r) (sphere_unit p) (sphere_unit q) (sphere_unit r)). pose proof radius_pos. nra.
Qed.

(* ---- ways ---- *)
Lemma sum_polyline ns : forall s, sum_distances R Rplus Rminus Rmult sin cos asin sqrt (/ 2) 2 r_deg_to_rad r_radius r_lon r_lat s ns =
  s + polyline great_circle (map wn_pos ns).
Proof.
  induction ns as [|a [|b r] IH]; intros s; [cbn; ring|cbn; ring|].
  change (sum_distances R Rplus Rminus Rmult sin cos asin sqrt (/ 2) 2 r_deg_to_rad r_radius r_lon r_lat s (a :: b :: r)) with
    (sum_distances R Rplus Rminus Rmult sin cos asin sqrt (/ 2) 2 r_deg_to_rad r_radius r_lon r_lat (s + r_distance (wn_pos a) (wn_pos b)) (b :: r)).
  rewrite IH, distance_great_circle. change (polyline great_circle (map wn_pos (a :: b :: r))) with (great_circle (wn_pos a) (wn_pos b) + polyline great_circle (map wn_pos (b :: r))). ring.
Qed.
Lemma way_polyline ns : r_way_distance ns = polyline great_circle (map wn_pos ns).
Proof.
  unfold r_way_distance, way_distance. destruct ns as [|a [|b r]]; [reflexivity|reflexivity|]. cbn [List.length Nat.ltb Nat.leb].
  rewrite sum_polyline. ring.
Qed.
Lemma polyline_app d a p b : polyline d (a ++ p :: b) = polyline d (a ++ [p]) + polyline d (p :: b).
Proof.
  induction a as [|x [|y a] IH].
  - cbn [app]. change (polyline d [p]) with 0. ring.
  - cbn [app]. change (polyline d (x :: p :: b)) with (d x p + polyline d (p :: b)). change (polyline d [x; p]) with (d x p + 0). ring.
  - cbn [app] in *. change (polyline d (x :: y :: a ++ p :: b)) with (d x y + polyline d (y :: a ++ p :: b)).
    change (polyline d (x :: y :: a ++ [p])) with (d x y + polyline d (y :: a ++ [p])). rewrite IH. ring.
Qed.
Lemma polyline_rev ps : polyline great_circle (rev ps) = polyline great_circle ps.
Proof.
  induction ps as [|p [|q r] IH]; [reflexivity|reflexivity|].
  change (rev (p :: q :: r)) with ((rev r ++ [q]) ++ [p]). rewrite <- app_assoc. cbn [app]. rewrite (polyline_app _ (rev r) q [p]).
  change (rev r ++ [q]) with (rev (q :: r)). rewrite IH.
  change (polyline great_circle [q; p]) with (great_circle q p + 0). change (polyline great_circle (p :: q :: r)) with (great_circle p q + polyline great_circle (q :: r)).
  rewrite (great_circle_sym q p). ring.
Qed.
Lemma polyline_ends p ps : great_circle p (last ps p) <= polyline great_circle (p :: ps).
Proof.
  revert p. induction ps as [|q r IH]; intros p; [cbn; rewrite great_circle_refl; lra|].
  change (polyline great_circle (p :: q :: r)) with (great_circle p q + polyline great_circle (q :: r)).
  assert (E : last (q :: r) p = last r q).
  { clear. revert q p. induction r as [|x r IH]; intros q p; auto. change (last (q :: x :: r) p) with (last (x :: r) p). now rewrite (IH x p), <- (IH x q). }
  rewrite E. pose proof (great_circle_triangle p q (last r q)). specialize (IH q). lra.
Qed.

Lemma polyline_ext d e ps : (forall p q, d p q = e p q) -> polyline d ps = polyline e ps.
Proof.
  intros H. induction ps as [|p [|q r] IH]; auto. change (polyline d (p :: q :: r)) with (d p q + polyline d (q :: r)).
  change (polyline e (p :: q :: r)) with (e p q + polyline e (q :: r)). now rewrite IH, H.
Qed.
Lemma way_sum ns : r_way_distance ns = polyline r_distance (map wn_pos ns).
Proof. rewrite way_polyline. apply polyline_ext. intros. symmetry. apply distance_great_circle. Qed.
Lemma way_split a n b : r_way_distance (a ++ n :: b) = r_way_distance (a ++ [n]) + r_way_distance (n :: b).
Proof. rewrite !way_polyline, !map_app. cbn [map]. apply polyline_app. Qed.
Lemma way_rev ns : r_way_distance (rev ns) = r_way_distance ns.
Proof. rewrite !way_polyline, map_rev. apply polyline_rev. Qed.
Lemma way_ends n ns : r_distance (wn_pos n) (wn_pos (last ns n)) <= r_way_distance (n :: ns).
Proof.
  rewrite way_polyline, distance_great_circle. cbn [map].
  assert (E : wn_pos (last ns n) = last (map wn_pos ns) (wn_pos n)).
  { revert n. induction ns as [|x [|y r] IH]; intros n; auto. cbn [map] in *. change (last (x :: y :: r) n) with (last (y :: r) n).
    change (last (wn_pos x :: wn_pos y :: map wn_pos r) (wn_pos n)) with (last (wn_pos y :: map wn_pos r) (wn_pos n)). apply IH. }
  rewrite E. apply polyline_ends.
Qed.
Lemma one_degree : r_distance (mkPos 0 0) (mkPos 10000000 0) = r_radius * acos (cos (1 * r_deg_to_rad)).
Proof.
  rewrite distance_great_circle. unfold great_circle, dot, on_sphere, r_lon, r_lat, coordinate_precision. cbn [px py vx vy vz].
  replace (0 / 10000000 * r_deg_to_rad) with 0 by field. replace (10000000 / 10000000 * r_deg_to_rad) with (1 * r_deg_to_rad) by field.
  rewrite !cos_0, !sin_0. f_equal. f_equal. ring.
Qed.
