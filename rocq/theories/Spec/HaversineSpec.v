(** Specification of distances: the great circle on a sphere. *)
From Coq Require Import Reals.
From Flocq Require Import IEEE754.BinarySingleNaN IEEE754.Binary IEEE754.Bits.
From Verif Require Import Base.Prelude Model.Osm Model.Float Model.Haversine.
Local Open Scope R_scope.

(** the point on the unit sphere *)
Record vec := mkVec { vx : R; vy : R; vz : R }.
Definition dot (u v : vec) : R := vx u * vx v + vy u * vy v + vz u * vz v.
Definition on_sphere (p : position) : vec :=
  let lambda := r_lon p * r_deg_to_rad in
  let phi := r_lat p * r_deg_to_rad in
  mkVec (cos phi * cos lambda) (cos phi * sin lambda) (sin phi).
Definition great_circle (p q : position) : R := r_radius * acos (dot (on_sphere p) (on_sphere q)).
(** sum of the distances of neighbours *)
Fixpoint polyline (d : position -> position -> R) (ps : list position) : R :=
  match ps with
  | p :: ((q :: _) as r) => d p q + polyline d r
  | _ => 0
  end.

(** what is needed of the functions of the C library *)
Definition d_fin (x : double) : Prop := is_finite 53 1024 x = true.
Definition d_val (x : double) : R := B2R 53 1024 x.
Definition d_opp (x : double) : double := b64_opp x.
Definition bounded_by_one (f : double -> double) : Prop := forall x, d_fin x -> d_fin (f x) /\ Rabs (d_val (f x)) <= 1.
Definition odd_function (f : double -> double) : Prop := forall x, d_fin x -> f (d_opp x) = d_opp (f x).
Definition fixes_zero (f : double -> double) : Prop := f d_zero = d_zero.
Definition legal_position (p : position) : Prop := in_i32 (px p) /\ in_i32 (py p).

(** a function of the C library that is wrong by at most one unit in the last place, up to [lim] *)
Definition accurate (lim : R) (f : double -> double) (g : R -> R) : Prop :=
  forall x, d_fin x -> Rabs (d_val x) <= lim -> d_fin (f x) /\ Rabs (d_val (f x) - g (d_val x)) <= / 2 ^ 52 * Rabs (g (d_val x)) + / 2 ^ 100.
(** asin has no value above one *)
Definition undefined_above_one (f : double -> double) : Prop := forall x, d_fin x -> 1 < d_val x -> ~ d_fin (f x).
Definition on_earth (p : position) : Prop := (Z.abs (px p) <= 1800000000)%Z /\ (Z.abs (py p) <= 900000000)%Z.
(** every two neighbours are at most [lim] apart *)
Fixpoint steps_within (lim : R) (ps : list position) : Prop :=
  match ps with
  | p :: ((q :: _) as r) => r_distance p q <= lim /\ steps_within lim r
  | _ => True
  end.
