(** C53: distances. *)
From Coq Require Import Reals Lra.
From Flocq Require Import IEEE754.Bits.
From Verif Require Import Base.Prelude Model.Osm Model.Float Model.Haversine Spec.HaversineSpec
  Proofs.FloatProofs Proofs.HaversineProofs Proofs.HavFloatProofs Proofs.HavError3Proofs Proofs.HavError4Proofs.

(* ---- with real numbers ---- *)
(** The formula is the great circle distance. *)
Theorem C53_great_circle : forall p q, r_distance p q = great_circle p q.
Proof. exact distance_great_circle. Qed.
Print Assumptions C53_great_circle.
Theorem C53_metric : (forall p q, r_distance p q = r_distance q p) /\
  (forall p q, (0 <= r_distance p q <= PI * r_radius)%R) /\
  (forall p, r_distance p p = 0%R) /\
  (forall p q, r_distance p q = 0%R -> on_sphere p = on_sphere q) /\
  (forall p q r, (r_distance p r <= r_distance p q + r_distance q r)%R).
Proof.
  split; [|split; [|split; [|split]]]; intros; rewrite ?distance_great_circle in *;
    auto using great_circle_sym, great_circle_bounds, great_circle_refl, great_circle_zero, great_circle_triangle.
Qed.
Print Assumptions C53_metric.
(** The length of a way is the sum of its parts; it can be split at any node, reversed, and is at
    least the distance of its ends. *)
Theorem C53_way_sum : forall ns, r_way_distance ns = polyline r_distance (map wn_pos ns).
Proof. exact way_sum. Qed.
Print Assumptions C53_way_sum.
Theorem C53_way_split : forall a n b, r_way_distance (a ++ n :: b) = (r_way_distance (a ++ [n]) + r_way_distance (n :: b))%R.
Proof. exact way_split. Qed.
Print Assumptions C53_way_split.
Theorem C53_way_reverse : forall ns, r_way_distance (rev ns) = r_way_distance ns.
Proof. exact way_rev. Qed.
Print Assumptions C53_way_reverse.
Theorem C53_way_ends : forall n ns, (r_distance (wn_pos n) (wn_pos (last ns n)) <= r_way_distance (n :: ns))%R.
Proof. exact way_ends. Qed.
Print Assumptions C53_way_ends.
Example C53_example : (r_distance (mkPos 0 0) (mkPos 10000000 0) = r_radius * acos (cos (1 * r_deg_to_rad)))%R.
Proof. exact one_degree. Qed.
(** One degree is a 180th of pi to twenty digits, the radius is between the polar and the equatorial one, and the constants of the program are the doubles
    next to those of the source text. *)
Theorem C53_constants : (Rabs (r_deg_to_rad - PI / 180) <= / 10 ^ 20)%R /\ (6356752 < r_radius < 6378137)%R /\
  (Rabs (d_val d_deg_to_rad - r_deg_to_rad) <= / 2 ^ 59)%R /\ (Rabs (d_val d_radius - r_radius) <= / 2 ^ 31)%R /\
  d_val d_half = (/ 2)%R /\ d_val d_two = 2%R.
Proof. exact (conj degrees_pi (conj radius_earth double_constants)). Qed.
Print Assumptions C53_constants.

(* ---- with doubles ---- *)
(** For every sin, cos and asin of the C library with values of at most one, odd sin, no rounding of zero. *)
Theorem C53_double_symmetric : forall dsin dcos dasin, bounded_by_one dsin -> odd_function dsin -> bounded_by_one dcos ->
  forall p q, legal_position p -> legal_position q -> d_distance dsin dcos dasin p q = d_distance dsin dcos dasin q p.
Proof. exact distance_sym. Qed.
Print Assumptions C53_double_symmetric.
Theorem C53_double_zero : forall dsin dcos dasin, bounded_by_one dcos -> forall p, fixes_zero dsin -> fixes_zero dasin ->
  legal_position p -> d_distance dsin dcos dasin p p = d_zero.
Proof. exact distance_same. Qed.
Print Assumptions C53_double_zero.
(** A node added at the end adds one distance. *)
Theorem C53_double_append : forall dsin dcos dasin ns a b, ns <> [] ->
  d_way_distance dsin dcos dasin (ns ++ [a; b]) =
  d_add (d_way_distance dsin dcos dasin (ns ++ [a])) (d_distance dsin dcos dasin (wn_pos a) (wn_pos b)).
Proof. exact way_snoc. Qed.
Print Assumptions C53_double_append.
(** a crude sin meeting the hypotheses *)
Example C53_double_example : bounded_by_one clip /\ odd_function clip /\ fixes_zero clip /\ legal_position (mkPos 100000000 (-500000000)).
Proof. split; [exact clip_bounded|]. split; [exact clip_odd|]. split; [vm_compute; reflexivity|]. split; vm_compute; split; intros H; discriminate H. Qed.

(* ---- how wrong the doubles are ---- *)
(** With functions of the C library that are wrong by at most one unit in the last place, the distance of two positions on earth up to 20000 km apart is a number
    and wrong by at most a millimetre. *)
Theorem C53_double_close : forall dsin dcos dasin p q, accurate 4 dsin sin -> accurate 4 dcos cos -> accurate 1 dasin asin -> on_earth p -> on_earth q ->
  (r_distance p q <= 20000000)%R ->
  d_fin (d_distance dsin dcos dasin p q) /\ (Rabs (d_val (d_distance dsin dcos dasin p q) - r_distance p q) <= / 1000)%R.
Proof. exact distance_close. Qed.
Print Assumptions C53_double_close.
(** For any two positions on earth it is wrong by at most three metres, if it is a number. *)
Theorem C53_double_near : forall dsin dcos dasin p q, accurate 4 dsin sin -> accurate 4 dcos cos -> accurate 1 dasin asin -> undefined_above_one dasin ->
  on_earth p -> on_earth q -> d_fin (d_distance dsin dcos dasin p q) ->
  (Rabs (d_val (d_distance dsin dcos dasin p q) - r_distance p q) <= 3)%R.
Proof. exact distance_near. Qed.
Print Assumptions C53_double_near.
(** The length of a way of up to a hundred thousand steps, each up to 20000 km, is wrong by at most two millimetres for each step. *)
Theorem C53_double_way : forall dsin dcos dasin, accurate 4 dsin sin -> accurate 4 dcos cos -> accurate 1 dasin asin ->
  forall ns, (Z.of_nat (List.length ns) <= 100001)%Z -> Forall on_earth (map wn_pos ns) -> steps_within 20000000 (map wn_pos ns) ->
  d_fin (d_way_distance dsin dcos dasin ns) /\
  (Rabs (d_val (d_way_distance dsin dcos dasin ns) - r_way_distance ns) <= IZR (Z.of_nat (List.length ns - 1)) * 0.002)%R.
Proof. exact way_close. Qed.
Print Assumptions C53_double_way.
(** functions rounded correctly meet the hypotheses, and so do two positions a quarter of the equator apart *)
Example C53_accurate_example : (accurate 4 lib_sin sin /\ accurate 4 lib_cos cos /\ accurate 1 lib_asin asin /\ undefined_above_one lib_asin) /\
  on_earth (mkPos 0 0) /\ on_earth (mkPos 900000000 0) /\ (0 < r_distance (mkPos 0 0) (mkPos 900000000 0) <= 20000000)%R.
Proof. exact (conj lib_accurate quarter). Qed.
(** Finding: nothing keeps the argument of asin from being above one.  With a sine that is wrong by one unit in the last place the distance of two antipodes is
    no number. *)
Theorem C53_double_nan_refuted : exists dsin dcos dasin p q, accurate 4 dsin sin /\ accurate 4 dcos cos /\ accurate 1 dasin asin /\ undefined_above_one dasin /\
  on_earth p /\ on_earth q /\ ~ d_fin (d_distance dsin dcos dasin p q).
Proof. exact antipodes_nan. Qed.
Print Assumptions C53_double_nan_refuted.
