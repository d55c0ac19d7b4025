(** Specification of the shapefile export: which objects get a row, and what is in it. *)
From Verif Require Import Base.Prelude Model.Osm Model.Float Model.Geom Model.Shapefile Model.Toshape Spec.GeomSpec Spec.ShapefileSpec.

(** the first tag with this key has this value *)
Definition tagged (ts : tag_list) (k v : string) : Prop :=
  exists l1 l2, ts = l1 ++ mkTag k v :: l2 /\ Forall (fun t => tkey t <> k) l1.

(** [rows]: one for each selected object, in order *)
Inductive exported {A R} (sel : A -> Prop) (ok : A -> R -> Prop) : list A -> list R -> Prop :=
| exp_nil : exported sel ok [] []
| exp_take a l r rs : sel a -> ok a r -> exported sel ok l rs -> exported sel ok (a :: l) (r :: rs)
| exp_skip a l rs : ~ sel a -> exported sel ok l rs -> exported sel ok (a :: l) rs.

(** a text column of 30 bytes: the whole characters of the value that fit; empty without the tag *)
Definition text_cell (ts : tag_list) (k : string) (cell : option (list Z)) : Prop :=
  (forall v, tagged ts k v -> exists t, cell = Some t /\
     forall cs, Forall utf8_char cs -> text_bytes v = List.concat cs -> t = List.concat (fitting 30 cs)) /\
  ((forall v, ~ tagged ts k v) -> cell = None).

Definition lonlat (p : position) : double * double := (pos_lon p, pos_lat p).

(** a post box *)
Definition post_box (o : object) : Prop :=
  exists n, o = ONode n /\ tagged (o_tags (n_attrs n)) "amenity" "post_box".
Definition post_box_row (o : object) (r : row) : Prop :=
  match o with
  | ONode n => row_points r = [lonlat (n_pos n)] /\ row_id r = Some (d_of_Z (o_id (n_attrs n))) /\
      text_cell (o_tags (n_attrs n)) "operator" (row_text r)
  | _ => False
  end.
(** a way with a highway tag *)
Definition highway (o : object) : Prop := exists w v, o = OWay w /\ tagged (o_tags (w_attrs w)) "highway" v.
(** a road that is a line: there are two different positions *)
Definition road (o : object) : Prop :=
  highway o /\ exists w a b, o = OWay w /\ In a (w_nodes w) /\ In b (w_nodes w) /\ wn_pos a <> wn_pos b.
(** its line goes through the positions of its nodes in order, without repetitions in a row *)
Definition road_row (o : object) (r : row) : Prop :=
  match o with
  | OWay w => row_points r = map lonlat (squeeze (map wn_pos (w_nodes w))) /\ row_id r = Some (d_of_Z (o_id (w_attrs w))) /\
      text_cell (o_tags (w_attrs w)) "highway" (row_text r)
  | _ => False
  end.

(** the last node of a highway has a position *)
Definition usable (o : object) : Prop :=
  highway o -> exists w ns n, o = OWay w /\ w_nodes w = ns ++ [n] /\ pos_defined (wn_pos n) = true.
(** a way that fits into a shapefile of its own *)
Definition fits_file (o : object) : Prop :=
  match o with OWay w => Z.of_nat (List.length (w_nodes w)) <= 134217718 | _ => True end.

(** the shapes of the files of a layer are those of its rows, in order *)
Fixpoint numbered_shapes (type : shptype) (parts : Z) (k : nat) (rs : list row) : list shp :=
  match rs with
  | [] => []
  | r :: l => mkShp type parts (Z.of_nat (List.length (row_points r))) (Z.of_nat k) :: numbered_shapes type parts (S k) l
  end.
(** the files of a layer: all have the two fields, none is too big, they are numbered *)
Definition layer_files (type : shptype) (parts : Z) (name : string) (ly : layer) : Prop :=
  let files := all_files (ly_shp ly) in
  flat_map sf_shapes files = numbered_shapes type parts 0 (ly_rows ly) /\
  (forall f, In f files -> shp_size f <= 2147483647 /\ dbf_size f <= 2147483647 /\
     sf_fields f = [mkField "id" FTDouble 12 0; mkField name FTString 30 0]) /\
  map sf_seq files = map (fun k => to_u32 (Z.of_nat k)) (seq 0 (List.length files)).
