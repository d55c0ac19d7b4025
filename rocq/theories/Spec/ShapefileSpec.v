(** Specifications for shapefiles: UTF-8, record sizes of the ESRI specification, file sizes. *)
From Verif Require Import Base.Prelude Model.Osm Model.Shapefile.

(* ---- UTF-8 ---- *)
Definition cont_byte (b : Z) : Prop := 128 <= b < 192.
(** a character is a list of one to four bytes; zero ends strings *)
Inductive utf8_char : list Z -> Prop :=
| u1 a : 1 <= a < 128 -> utf8_char [a]
| u2 a b : 192 <= a < 224 -> cont_byte b -> utf8_char [a; b]
| u3 a b c : 224 <= a < 240 -> cont_byte b -> cont_byte c -> utf8_char [a; b; c]
| u4 a b c d : 240 <= a < 248 -> cont_byte b -> cont_byte c -> cont_byte d -> utf8_char [a; b; c; d].
(** the characters from the start that fit into n bytes *)
Fixpoint fitting (n : nat) (cs : list (list Z)) : list (list Z) :=
  match cs with
  | [] => []
  | c :: r => if (List.length c <=? n)%nat then c :: fitting (n - List.length c) r else []
  end.

(* ---- sizes ---- *)
(** ESRI Shapefile Technical Description: record header and contents in bytes *)
Definition esri_record (s : shp) : option Z :=
  let p := s_parts s in let n := s_vertices s in
  match s_type s with
  | SHPT_NULL => Some (8 + 4)
  | SHPT_POINT => Some (8 + 20)
  | SHPT_MULTIPOINT => Some (8 + (40 + 16 * n))
  | SHPT_ARC | SHPT_POLYGON => Some (8 + (44 + 4 * p + 16 * n))
  | SHPT_POINTM => Some (8 + 28)
  | SHPT_MULTIPOINTM => Some (8 + (40 + 16 * n + 16 + 8 * n))
  | SHPT_ARCM | SHPT_POLYGONM => Some (8 + (44 + 4 * p + 16 * n + 16 + 8 * n))
  | SHPT_POINTZ => Some (8 + 36)
  | SHPT_MULTIPOINTZ => Some (8 + (40 + 16 * n + 16 + 8 * n + 16 + 8 * n))
  | SHPT_ARCZ | SHPT_POLYGONZ => Some (8 + (44 + 4 * p + 16 * n + 16 + 8 * n + 16 + 8 * n))
  | SHPT_MULTIPATCH => Some (8 + (44 + 4 * p + 4 * p + 16 * n + 16 + 8 * n + 16 + 8 * n))
  | SHPT_UNKNOWN => None
  end.
Definition sizes_ok (s : shp) : Prop :=
  0 <= s_parts s /\ 0 <= s_vertices s /\ 4 * s_vertices s <= int32_max /\ 2 * s_parts s <= int32_max.
Definition record_size (s : shp) : Z := match esri_record s with Some x => x | None => 0 end.
Definition zsum (l : list Z) : Z := fold_right Z.add 0 l.
(** size of the .shp file *)
Definition shp_size (f : sfile) : Z := 100 + zsum (map record_size (sf_shapes f)).
(** size of the .dbf file with one record for each shape *)
Definition dbf_size (f : sfile) : Z :=
  33 + 32 * Z.of_nat (List.length (sf_fields f)) +
  Z.of_nat (List.length (sf_shapes f)) * (1 + zsum (map f_width (sf_fields f))).
(** fields first, then shapes *)
Definition is_field (x : sop) : Prop := match x with OField _ _ w _ _ => 0 <= w | OShape _ _ => False end.
(** shapes that fit into a file of their own *)
Definition small_shape (x : sop) : Prop :=
  match x with
  | OShape (Some o) _ => sizes_ok o /\ 100 + record_size o <= 2147483647
  | OShape None _ => True
  | OField _ _ _ _ _ => False
  end.
(** the shapes for which add_geometry returned normally *)
Fixpoint written (xs : list sop) (os : list (outcome unit)) : list shp :=
  match xs, os with
  | OShape (Some o) _ :: xs', Ok tt :: os' => o :: written xs' os'
  | _ :: xs', _ :: os' => written xs' os'
  | _, _ => []
  end.
