(** The real number a decimal text stands for. *)
From Coq Require Import Reals.
From Verif Require Import Base.Prelude Spec.TimeSpec Spec.FloatSpec.

Inductive sign_of : string -> bool -> Prop :=
| sign_none : sign_of "" false
| sign_plus : sign_of "+" false
| sign_minus : sign_of "-" true.
(** blanks, sign, digits, and possibly a point and further digits: the number -n or n over 10^k *)
Inductive mantissa : string -> bool -> Z -> Z -> Prop :=
| mantissa_int sp sg neg ds n : all_blank sp -> sign_of sg neg -> number ds n ->
    mantissa (sp ++ sg ++ ds) neg n 0
| mantissa_frac sp sg neg ds fs n : all_blank sp -> sign_of sg neg -> number (ds ++ fs) n ->
    mantissa (sp ++ sg ++ ds ++ "." ++ fs) neg n (Z.of_nat (String.length fs)).
(** nothing, or e or E and a number with an optional sign *)
Inductive exponent : string -> Z -> Prop :=
| exponent_none : exponent "" 0
| exponent_some c sg neg ds n : c = "e"%char \/ c = "E"%char -> sign_of sg neg -> number ds n ->
    exponent (String c (sg ++ ds)) (if neg then - n else n).
Inductive decimal : string -> R -> Prop :=
| decimal_intro a b neg n k e : mantissa a neg n k -> exponent b e ->
    decimal (a ++ b) (IZR (if neg then - n else n) * powerRZ 10 (e - k)).
(** the degrees that fit into a coordinate *)
Definition coordinate_range (r : R) : Prop := (-2147483648 * precision <= r <= 2147483647 * precision)%R.
