(** Specification of the export with OGR: which objects become features, and what is in them. *)
From Verif Require Import Base.Prelude Model.Osm Model.Float Model.Geom Model.Area Model.Handler Model.Ogr
  Spec.TimeSpec Spec.TagsSpec Spec.HandlerSpec Spec.ToshapeSpec.
Local Open Scope Z_scope.

(** the text field: the value of the first tag with this key; nothing without one *)
Definition text_field (ts : tag_list) (k : string) (t : option string) : Prop :=
  (forall v, tagged ts k v -> t = Some v) /\ ((forall v, ~ tagged ts k v) -> t = None).
(** the feature of a post box *)
Definition post_box_feature (o : object) (f : feature double) : Prop :=
  match o with
  | ONode n => ft_geom f = OgrPoint (lonlat (n_pos n)) /\ ft_id f = d_of_Z (o_id (n_attrs n)) /\
      text_field (o_tags (n_attrs n)) "operator" (ft_text f)
  | _ => False
  end.
(** the feature of a highway: its line goes through the positions of all its nodes *)
Definition highway_feature (o : object) (f : feature double) : Prop :=
  match o with
  | OWay w => ft_geom f = OgrLine (map (fun n => lonlat (wn_pos n)) (w_nodes w)) /\ ft_id f = d_of_Z (o_id (w_attrs w)) /\
      text_field (o_tags (w_attrs w)) "highway" (ft_text f)
  | _ => False
  end.

(** the tags that are kept *)
Definition kept_tag (t : tag) : Prop := tkey t <> "created_by"%string /\ tkey t <> "odbl"%string.
Definition tagged_node (o : object) : Prop := exists n t, o = ONode n /\ In t (o_tags (n_attrs n)) /\ kept_tag t.
(** the number of a decimal text *)
Definition integer (s : string) (n : Z) : Prop :=
  (0 <= n /\ number s n) \/ (n < 0 /\ exists d, s = String "-" d /\ number d (- n)).
(** [kept]: the kept tags of [ts], in order *)
Inductive kept_of : tag_list -> list (string * string) -> Prop :=
| kept_nil : kept_of [] []
| kept_take t ts l : kept_tag t -> kept_of ts l -> kept_of (t :: ts) ((tkey t, tvalue t) :: l)
| kept_skip t ts l : ~ kept_tag t -> kept_of ts l -> kept_of (t :: ts) l.
(** the feature of a node *)
Definition node_feature (o : object) (f : feature string) : Prop :=
  match o with
  | ONode n => ft_geom f = OgrPoint (lonlat (n_pos n)) /\ integer (ft_id f) (o_id (n_attrs n)) /\
      exists text kept, ft_text f = Some text /\ kept_of (o_tags (n_attrs n)) kept /\ hstore_parse text = Some kept
  | _ => False
  end.
(** tags without zero bytes *)
Definition clean_tags (o : object) : Prop := match o with ONode n => Forall c_tag (o_tags (n_attrs n)) | _ => True end.
(** the nodes of the file are in one piece *)
Definition nodes_together (gs : list (otype * list object)) : Prop :=
  forall before ns rest g, join gs = before ++ (NODE, ns) :: rest -> In g (before ++ rest) -> fst g <> NODE.
