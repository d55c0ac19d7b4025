(** Specifications for geometries: an EWKB reader, hexadecimal text, lists without repetitions. *)
From Flocq Require Import IEEE754.Bits.
From Verif Require Import Base.Prelude Model.Osm Model.Float Model.Geom.

(* ---- reading EWKB (little endian) ---- *)
Fixpoint of_le (l : list Z) : Z := match l with [] => 0 | b :: r => b + 256 * of_le r end.
Fixpoint take (n : nat) (l : list Z) : option (list Z * list Z) :=
  match n with
  | O => Some ([], l)
  | S m => match l with
           | [] => None
           | b :: r => match take m r with Some (x, y) => Some (b :: x, y) | None => None end
           end
  end.
Definition read_uint (n : nat) (l : list Z) : option (Z * list Z) :=
  match take n l with Some (x, y) => Some (of_le x, y) | None => None end.
Definition coord := (double * double)%type.
Definition read_coord (l : list Z) : option (coord * list Z) :=
  match read_uint 8 l with
  | Some (x, l1) => match read_uint 8 l1 with
                    | Some (y, l2) => Some ((b64_of_bits x, b64_of_bits y), l2)
                    | None => None
                    end
  | None => None
  end.
Fixpoint read_coords (n : nat) (l : list Z) : option (list coord * list Z) :=
  match n with
  | O => Some ([], l)
  | S m => match read_coord l with
           | Some (c, l1) => match read_coords m l1 with Some (cs, l2) => Some (c :: cs, l2) | None => None end
           | None => None
           end
  end.
Definition read_counted (l : list Z) : option (list coord * list Z) :=
  match read_uint 4 l with Some (n, l1) => read_coords (Z.to_nat n) l1 | None => None end.
Fixpoint read_rings (n : nat) (l : list Z) : option (list (list coord) * list Z) :=
  match n with
  | O => Some ([], l)
  | S m => match read_counted l with
           | Some (c, l1) => match read_rings m l1 with Some (cs, l2) => Some (c :: cs, l2) | None => None end
           | None => None
           end
  end.
Inductive shape :=
| SPoint (c : coord)
| SLine (cs : list coord)
| SPoly (rings : list (list coord)).
(** byte order, type with SRID flag, SRID, body; nothing may follow *)
Definition read_body (type : Z) (l : list Z) : option shape :=
  if type =? 1 then match read_coord l with Some (c, []) => Some (SPoint c) | _ => None end
  else if type =? 2 then match read_counted l with Some (cs, []) => Some (SLine cs) | _ => None end
  else if type =? 3 then
    match read_uint 4 l with
    | Some (n, l1) => match read_rings (Z.to_nat n) l1 with Some (rs, []) => Some (SPoly rs) | _ => None end
    | None => None
    end
  else None.
Definition read_ewkb (l : list Z) : option (option Z * shape) :=
  match l with
  | 1 :: l0 =>
      match read_uint 4 l0 with
      | Some (t, l1) =>
          if Z.testbit t 29 then
            match read_uint 4 l1 with
            | Some (s, l2) => match read_body (Z.clearbit t 29) l2 with Some g => Some (Some s, g) | None => None end
            | None => None
            end
          else match read_body t l1 with Some g => Some (None, g) | None => None end
      | None => None
      end
  | _ => None
  end.
Definition coord_of (p : position) : coord := (pos_lon p, pos_lat p).
Definition srid_of (s : bool) : option Z := if s then Some 4326 else None.

(* ---- hexadecimal ---- *)
Definition hex_val (c : ascii) : option Z :=
  let n := Z.of_N (N_of_ascii c) in
  if (48 <=? n) && (n <=? 57) then Some (n - 48) else if (65 <=? n) && (n <=? 70) then Some (n - 55) else None.
Fixpoint unhex (s : string) : option (list Z) :=
  match s with
  | EmptyString => Some []
  | String a (String b r) =>
      match hex_val a, hex_val b, unhex r with
      | Some x, Some y, Some l => Some (16 * x + y :: l)
      | _, _, _ => None
      end
  | _ => None
  end.

(* ---- shapes ---- *)
(** the list with repetitions in a row removed *)
Fixpoint squeeze (ps : list position) : list position :=
  match ps with
  | [] => []
  | p :: r => match r with
              | q :: _ => if pos_eqb p q then squeeze r else p :: squeeze r
              | [] => [p]
              end
  end.
(** nodes with the same ref have the same position *)
Definition consistent (ns : list way_node) : Prop :=
  forall a b, In a ns -> In b ns -> wn_ref a = wn_ref b -> wn_pos a = wn_pos b.
Fixpoint no_repeat (ps : list position) : Prop :=
  match ps with
  | p :: ((q :: _) as r) => p <> q /\ no_repeat r
  | _ => True
  end.
(** [sub] comes from [l] by repeating its elements *)
Inductive stretched : list position -> list position -> Prop :=
| st_nil : stretched [] []
| st_cons p n l l' : stretched l l' -> stretched (p :: l) (repeat p (S n) ++ l').

(** the rings of a GEOS geometry in order *)
Fixpoint geos_rings (g : geos) : list (list coord) :=
  match g with
  | GLine cs => [cs]
  | GPolygon e hs => e :: hs
  | GMulti l => (fix go l := match l with [] => [] | x :: r => geos_rings x ++ go r end) l
  | GOther => []
  end.
Fixpoint geos_known (g : geos) : Prop :=
  match g with
  | GMulti l => (fix go l := match l with [] => True | x :: r => geos_known x /\ go r end) l
  | GOther => False
  | _ => True
  end.
(** cutting a list at the given positions *)
Fixpoint cut {A} (starts : list Z) (l : list A) : list (list A) :=
  match starts with
  | [] => []
  | s :: r => match r with
              | [] => [skipn (Z.to_nat s) l]
              | e :: _ => firstn (Z.to_nat (e - s)) (skipn (Z.to_nat s) l) :: cut r l
              end
  end.
