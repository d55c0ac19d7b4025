(** The text of a double in an output stream, as used for WKT: operator<< with the precision set
    by std::setprecision(10) (/repo/include/osmium/geometry/point.hpp 74, linestring.hpp 65,
    polygon.hpp 69) in the default notation, that is printf("%.10g") in the C locale, correctly
    rounded as in glibc.  The notation flags of the stream are taken to be the default ones (a
    program that has set std::fixed on the stream before gets another text). *)
From Flocq Require Import IEEE754.BinarySingleNaN IEEE754.Binary IEEE754.Bits.
From Verif Require Import Base.Prelude Base.Decimal Model.Osm Model.Float Model.Time Model.Decfloat Model.Geom.

(** 10^k <= n / d *)
Definition pow10_le (k n d : Z) : bool := if 0 <=? k then 10 ^ k * d <=? n else d <=? n * 10 ^ (- k).
(** the largest power of ten that is at most n / d, searched downwards from 10^k *)
Fixpoint find_exp (fuel : nat) (k n d : Z) : Z :=
  match fuel with
  | O => k
  | S f => if pow10_le k n d then k else find_exp f (k - 1) n d
  end.
(** n / d * 10^k rounded to an integer *)
Definition round_scaled (k n d : Z) : Z :=
  if 0 <=? k then round_ratio (n * 10 ^ k) d else round_ratio n (d * 10 ^ (- k)).
(** the P significant digits of n / d and the exponent of the first of them; doubles are between
    10^-324 and 10^309 *)
Definition sci_digits (P : Z) (n d : Z) : Z * Z :=
  let x := find_exp 633 308 n d in
  let m := round_scaled (P - 1 - x) n d in
  if m =? 10 ^ P then (10 ^ (P - 1), x + 1) else (m, x).
Fixpoint strip_zeros (s : string) : string :=
  match s with
  | EmptyString => EmptyString
  | String c r =>
      match strip_zeros r with
      | EmptyString => if Ascii.eqb c "0" then EmptyString else String c EmptyString
      | r' => String c r'
      end
  end.
(** digits before and after the point; zeros at the end and a point at the end are left out *)
Definition with_fraction (i f : string) : string :=
  match strip_zeros f with EmptyString => i | f' => (i ++ "." ++ f')%string end.
Definition print_trimmed (k : nat) (n : Z) : string :=
  with_fraction (print_nonneg (n / 10 ^ Z.of_nat k)) (print_fixed k (n mod 10 ^ Z.of_nat k)).
(** the exponent has at least two digits *)
Definition print_exponent (x : Z) : string :=
  ((if (x <? 0)%Z then "-" else "+") ++ (if (Z.abs x <? 100)%Z then print2 (Z.abs x) else print_nonneg (Z.abs x)))%string.
(** printf("%.<P>g"), P > 0 *)
Definition printf_g (P : nat) (v : double) : string :=
  match v with
  | Binary.B754_zero _ _ s => (sign_text s ++ "0")%string
  | Binary.B754_infinity _ _ s => (sign_text s ++ "inf")%string
  | Binary.B754_nan _ _ s _ _ => (sign_text s ++ "nan")%string
  | Binary.B754_finite _ _ s m e _ =>
      let n := if e <? 0 then Zpos m else Zpos m * 2 ^ e in
      let d := if e <? 0 then 2 ^ (- e) else 1 in
      let '(ds, x) := sci_digits (Z.of_nat P) n d in
      (sign_text s ++
       (if ((-4 <=? x) && (x <? Z.of_nat P))%Z then print_trimmed (Z.to_nat (Z.of_nat P - 1 - x)) ds
        else print_trimmed (P - 1) ds ++ "e" ++ print_exponent x))%string
  end.
(** point.hpp 74, linestring.hpp 65, polygon.hpp 69 and geometry.hpp 250-257 *)
Definition stream_double : double -> string := printf_g 10.
Definition point_text : bool -> position -> string := point_wkt stream_double.
Definition line_text : bool -> from_way -> string := line_wkt stream_double.
Definition poly_text : bool -> from_way -> string := poly_wkt stream_double.
