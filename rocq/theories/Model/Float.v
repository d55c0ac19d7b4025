(** IEEE 754 double arithmetic as used by osmium, and the coordinate conversions.
    [double] is Flocq's computable binary64 (round to nearest even); C's round() is
    nearbyint with ties away from zero; a cast double -> integer truncates and is UB if
    the value does not fit. *)
From Flocq Require Import IEEE754.BinarySingleNaN IEEE754.Binary IEEE754.Bits.
From Verif Require Import Base.Prelude Model.Osm.

Definition double : Set := binary64.
Definition prec64 : FLX.Prec_gt_0 53 := eq_refl.
Definition emax64 : BinarySingleNaN.Prec_lt_emax 53 1024 := eq_refl.
(** conversion of an integer to double (int32_t, int64_t or time_t operand): nearest even *)
Definition d_of_Z (z : Z) : double := Binary.binary_normalize 53 1024 prec64 emax64 mode_NE z 0 false.
Definition d_mul (x y : double) : double := b64_mult mode_NE x y.
Definition d_div (x y : double) : double := b64_div mode_NE x y.
(** C99 round(): to the nearest integer, halfway cases away from zero *)
Definition d_round (x : double) : double := Binary.Bnearbyint 53 1024 emax64 unop_nan_pl64 mode_NA x.
(** static_cast to a signed integer type with the given range: truncation; UB if the
    truncated value is out of range, or for infinities and NaN *)
Definition d_cast (lo hi : Z) (x : double) : outcome Z :=
  if Binary.is_finite 53 1024 x then
    let z := Binary.Btrunc 53 1024 x in
    if (lo <=? z) && (z <=? hi) then Ok z else UB
  else UB.
Definition d_to_i32 := d_cast int32_min int32_max.
Definition d_to_i64 := d_cast int64_min int64_max.

(** osm/position.hpp 35: coordinate_precision *)
Definition coordinate_precision : Z := 10000000.
(** osm/position.hpp 39-41: double_to_fix: round(c * coordinate_precision) converted to int32_t *)
Definition double_to_fix (c : double) : outcome Z :=
  d_to_i32 (d_round (d_mul c (d_of_Z coordinate_precision))).
(** osm/position.hpp 43-45: fix_to_double *)
Definition fix_to_double (c : Z) : double := d_div (d_of_Z c) (d_of_Z coordinate_precision).
(** osm/position.hpp 87-90: Position(double lon, double lat) *)
Definition pos_of_lonlat (lon lat : double) : outcome position :=
  let! x := double_to_fix lon in let! y := double_to_fix lat in Ok (mkPos x y).
(** osm/position.hpp 114-120: lon(), lat() *)
Definition pos_lon (p : position) : double := fix_to_double (px p).
Definition pos_lat (p : position) : double := fix_to_double (py p).
(** osm/position.hpp 122-130: the setters lon(double), lat(double) *)
Definition pos_set_lon (p : position) (lon : double) : outcome position :=
  let! x := double_to_fix lon in Ok (mkPos x (py p)).
Definition pos_set_lat (p : position) (lat : double) : outcome position :=
  let! y := double_to_fix lat in Ok (mkPos (px p) y).
