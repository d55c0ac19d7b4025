(** Distances.  Models /repo/include/osmium/geometry/haversine.hpp.
    The functions are written once for numbers of any kind: with IEEE doubles, where sin, cos and
    asin of the C library are parameters, and with real numbers, where nothing is rounded. *)
From Coq Require Import Reals.
From Flocq Require Import IEEE754.BinarySingleNaN IEEE754.Binary IEEE754.Bits.
From Verif Require Import Base.Prelude Model.Osm Model.Float.

Section Haversine.
  Variable D : Type.
  Variables (add sub mul : D -> D -> D) (dsin dcos dasin dsqrt : D -> D).
  (** the constants 0.5, 2.0 and 0.0 *)
  Variables (half two zero : D).
  (** haversine.hpp 42-46: DEG_TO_RAD, EARTH_RADIUS_IN_METERS *)
  Variables (deg_to_rad radius : D).
  (** position.hpp 114-120: lon(), lat() *)
  Variables (lon lat : position -> D).

  (** haversine.hpp 48-57: distance of coordinates *)
  Definition hav_distance (x1 y1 x2 y2 : D) : D :=
    let lon_arc := mul (sub x1 x2) deg_to_rad in
    let lat_arc := mul (sub y1 y2) deg_to_rad in
    let lonh := dsin (mul lon_arc half) in
    let lonh := mul lonh lonh in
    let lath := dsin (mul lat_arc half) in
    let lath := mul lath lath in
    let tmp := mul (dcos (mul y1 deg_to_rad)) (dcos (mul y2 deg_to_rad)) in
    mul (mul two radius) (dasin (dsqrt (add lath (mul tmp lonh)))).
  (** haversine.hpp 59-61: distance of positions *)
  Definition pos_distance (p q : position) : D := hav_distance (lon p) (lat p) (lon q) (lat q).
  (** haversine.hpp 70-72: the loop *)
  Fixpoint sum_distances (sum : D) (ns : list way_node) : D :=
    match ns with
    | a :: ((b :: _) as r) => sum_distances (add sum (pos_distance (wn_pos a) (wn_pos b))) r
    | _ => sum
    end.
  (** haversine.hpp 63-75: length of a way *)
  Definition way_distance (ns : list way_node) : D :=
    if (List.length ns <? 2)%nat then zero else sum_distances zero ns.
End Haversine.

(** with doubles; sqrt is correctly rounded by IEEE 754 *)
Definition d_add (x y : double) : double := b64_plus mode_NE x y.
Definition d_sub (x y : double) : double := b64_minus mode_NE x y.
Definition d_sqrt (x : double) : double := b64_sqrt mode_NE x.
Definition d_deg_to_rad : double := b64_of_bits 4580687790476533049.
Definition d_radius : double := b64_of_bits 4708600750251774096.
Definition d_half : double := b64_of_bits 4602678819172646912.
Definition d_two : double := d_of_Z 2.
Definition d_zero : double := d_of_Z 0.
Definition d_distance (dsin dcos dasin : double -> double) : position -> position -> double :=
  pos_distance double d_add d_sub d_mul dsin dcos dasin d_sqrt d_half d_two d_deg_to_rad d_radius pos_lon pos_lat.
Definition d_way_distance (dsin dcos dasin : double -> double) : list way_node -> double :=
  way_distance double d_add d_sub d_mul dsin dcos dasin d_sqrt d_half d_two d_zero d_deg_to_rad d_radius pos_lon pos_lat.

(** with real numbers; the constants are those of the source text *)
Definition r_deg_to_rad : R := (17453292519943295769236907684886 / 10 ^ 33)%R.
Definition r_radius : R := (6372797560856 / 1000000)%R.
Definition r_lon (p : position) : R := (IZR (px p) / IZR coordinate_precision)%R.
Definition r_lat (p : position) : R := (IZR (py p) / IZR coordinate_precision)%R.
Definition r_distance : position -> position -> R :=
  pos_distance R Rplus Rminus Rmult sin cos asin sqrt (/ 2)%R 2%R r_deg_to_rad r_radius r_lon r_lat.
Definition r_way_distance : list way_node -> R :=
  way_distance R Rplus Rminus Rmult sin cos asin sqrt (/ 2)%R 2%R 0%R r_deg_to_rad r_radius r_lon r_lat.
