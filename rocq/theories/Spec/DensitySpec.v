(** Specification of the map of node densities. *)
From Verif Require Import Base.Prelude Model.Osm Model.Handler Spec.HandlerSpec.
Local Open Scope Z_scope.

(** [k] is the cell for a distance of [a] * 10^-7 degrees from the edge, with [f] cells for a degree and [n] cells
    in all.  At the border of two cells it may be either; what lies outside is put into the first or last cell. *)
Definition cell (f n a k : Z) : Prop :=
  exists q, (q = a * f / 10000000 \/ (a * f mod 10000000 = 0 /\ q = a * f / 10000000 - 1)) /\ k = Z.max 0 (Z.min q (n - 1)).
(** the column is measured from 180 West, the row from 90 North *)
Definition placed (size : Z) (p : position) (xy : Z * Z) : Prop :=
  cell (size / 180) (2 * size) (1800000000 + px p) (fst xy) /\ cell (size / 180) size (900000000 - py p) (snd xy).
(** the number of positions placed at a pixel *)
Fixpoint placed_at (place : position -> Z * Z) (x y : Z) (ps : list position) : Z :=
  match ps with
  | [] => 0
  | p :: r => (if (fst (place p) =? x) && (snd (place p) =? y) then 1 else 0) + placed_at place x y r
  end.
(** the shade of grey for a count: 0 up to [mn], 255 from [mx] on *)
Definition grey (mn mx v : Z) : Z := (Z.max mn (Z.min v mx) - mn) * 255 / (mx - mn).
(** the image shows these positions *)
Definition shows_density (size mn mx : Z) (place : position -> Z * Z) (ps : list position) (image : list Z) : Prop :=
  Z.of_nat (List.length image) = 2 * size * size /\
  forall x y, 0 <= x < 2 * size -> 0 <= y < size ->
    nth_error image (Z.to_nat (y * (2 * size) + x)) = Some (grey mn mx (Z.min 65534 (placed_at place x y ps))).
(** the largest number of positions at a pixel, as far as it is counted *)
Definition fullest (place : position -> Z * Z) (ps : list position) (m : Z) : Prop :=
  (forall x y, Z.min 65534 (placed_at place x y ps) <= m) /\ exists x y, m = Z.min 65534 (placed_at place x y ps).
(** the positions as they are stored *)
Definition stored (p : position) : Prop := in_i32 (px p) /\ in_i32 (py p).
