(** WKT: what a text says, and a reader for points, line strings and polygons with one ring. *)
From Coq Require Import Reals.
From Verif Require Import Base.Prelude Model.Osm Model.Float Model.Decfloat Spec.FloatSpec Spec.DecimalSpec.

(** the decimal number s is exactly the coordinate n (in units of 10^-7 degrees) *)
Definition coordinate_exact (s : string) (n : Z) : Prop := decimal s (IZR n * precision)%R.
(** [coords_text s ps]: s is "x y,x y,..." with exactly the coordinates of ps *)
Inductive coords_text : string -> list position -> Prop :=
| coords_nil : coords_text "" []
| coords_last a b p : coordinate_exact a (px p) -> coordinate_exact b (py p) ->
    coords_text (a ++ " " ++ b) [p]
| coords_more a b p s q r : coordinate_exact a (px p) -> coordinate_exact b (py p) -> coords_text s (q :: r) ->
    coords_text (a ++ " " ++ b ++ "," ++ s) (p :: q :: r).

(** the part of s before the first c, and the part behind it *)
Fixpoint cut (c : ascii) (s : string) : string * option string :=
  match s with
  | EmptyString => (EmptyString, None)
  | String d r => if Ascii.eqb d c then (EmptyString, Some r) else let (a, b) := cut c r in (String d a, b)
  end.
Fixpoint drop_prefix (p s : string) : option string :=
  match p, s with
  | EmptyString, _ => Some s
  | String c p', String d s' => if Ascii.eqb c d then drop_prefix p' s' else None
  | _, _ => None
  end.
(** a number read with atof and stored as a coordinate *)
Definition read_number (s : string) : option Z :=
  match double_to_fix (atof s) with Ok n => Some n | _ => None end.
Definition read_xy (s : string) : option position :=
  match cut " " s with
  | (a, Some b) => match read_number a, read_number b with Some x, Some y => Some (mkPos x y) | _, _ => None end
  | (_, None) => None
  end.
Fixpoint read_xys (fuel : nat) (s : string) : option (list position) :=
  match fuel with
  | O => None
  | S f =>
      match cut "," s with
      | (a, None) => match read_xy a with Some p => Some [p] | None => None end
      | (a, Some r) => match read_xy a, read_xys f r with Some p, Some l => Some (p :: l) | _, _ => None end
      end
  end.
Definition read_list (s : string) : option (list position) :=
  match s with EmptyString => Some [] | _ => read_xys (S (String.length s)) s end.
Inductive wkt := WPoint (p : position) | WLine (ps : list position) | WPolygon (ps : list position).
Definition read_shape (s : string) : option wkt :=
  match drop_prefix "POINT(" s, drop_prefix "LINESTRING(" s, drop_prefix "POLYGON((" s with
  | Some r, _, _ =>
      match cut ")" r with (a, Some EmptyString) => option_map WPoint (read_xy a) | _ => None end
  | None, Some r, _ =>
      match cut ")" r with (a, Some EmptyString) => option_map WLine (read_list a) | _ => None end
  | None, None, Some r =>
      match cut ")" r with
      | (a, Some b) => if String.eqb b ")" then option_map WPolygon (read_list a) else None
      | _ => None
      end
  | _, _, _ => None
  end.
(** with the SRID, if there is one *)
Definition read_wkt (s : string) : option (bool * wkt) :=
  match drop_prefix "SRID=4326;" s with
  | Some r => option_map (pair true) (read_shape r)
  | None => option_map (pair false) (read_shape s)
  end.
Definition stored_position (p : position) : Prop := in_i32 (px p) /\ in_i32 (py p).
