(** Specification of the scripts that count tags and write tables. *)
From Verif Require Import Base.Prelude Base.Decimal Model.Osm Model.Handler Model.Unicode Model.Osm2shape
  Spec.UnicodeSpec Spec.JsSpec Spec.Osm2shapeSpec.
Local Open Scope Z_scope.

(** the different elements of a list, in the order in which they come first *)
Definition distinct {A} (eq : forall x y : A, {x = y} + {x <> y}) (l : list A) : list A :=
  fold_left (fun d x => if in_dec eq x d then d else d ++ [x]) l [].
Definition chars_eq : forall x y : chars, {x = y} + {x <> y} := list_eq_dec Z.eq_dec.
Definition pair_eq : forall x y : chars * chars, {x = y} + {x <> y}.
Proof. decide equality; apply chars_eq. Defined.
(** how often; numbers of Javascript end there *)
Definition counted {A} (eq : forall x y : A, {x = y} + {x <> y}) (l : list A) (x : A) : Z := Z.min (Z.of_nat (count_occ eq l x)) 9007199254740992.
(** the tags of the nodes among the objects *)
Inductive node_tags : list callback -> list (list (chars * chars)) -> Prop :=
| nt_nil : node_tags [] []
| nt_node n kvs cs l : o_tags (n_attrs n) = tags_of kvs -> node_tags cs l -> node_tags (CObj (ONode n) :: cs) (kvs :: l)
| nt_other c cs l : (forall n, c <> CObj (ONode n)) -> node_tags cs l -> node_tags (c :: cs) l.
(** ids and tags of them *)
Inductive node_rows : list callback -> list (Z * list (chars * chars)) -> Prop :=
| nr_nil : node_rows [] []
| nr_node n kvs cs l : o_tags (n_attrs n) = tags_of kvs -> node_rows cs l -> node_rows (CObj (ONode n) :: cs) ((o_id (n_attrs n), kvs) :: l)
| nr_other c cs l : (forall n, c <> CObj (ONode n)) -> node_rows cs l -> node_rows (c :: cs) l.
(** tags that can be counted: short texts without tabs and line breaks, every key once *)
Definition cell_text (t : chars) : Prop := ~ In 9 t /\ ~ In 10 t.
Definition countable (inherited : jstr -> bool) (kvs : list (chars * chars)) : Prop :=
  NoDup (map fst kvs) /\
  Forall (fun kv => short_text (fst kv) /\ short_text (snd kv) /\ cell_text (fst kv) /\ cell_text (snd kv) /\ named (fst kv) /\ inherited (utf16 (fst kv)) = false) kvs.
Definition or_undefined (v : option chars) : chars := match v with Some v => v | None => ascii_text "undefined" end.
(** nodes that can be written into the table *)
Definition tabular (r : Z * list (chars * chars)) : Prop :=
  - 9007199254740992 <= fst r <= 9007199254740992 /\
  Forall (fun kv => short_text (fst kv) /\ short_text (snd kv)) (snd r) /\
  forall k v, In k ["name"; "note"]%string -> first_value (ascii_text k) (snd r) = Some v -> cell_text v.
