(** Independent specifications for the OSM value types. *)
From Verif Require Import Base.Prelude Model.Osm.

(** What std::set / std::sort need of a comparison, on the elements satisfying [D]. *)
Record strict_weak_on {A} (D : A -> Prop) (lt : A -> A -> Prop) : Prop := {
  sw_irrefl : forall a, D a -> ~ lt a a;
  sw_trans : forall a b c, D a -> D b -> D c -> lt a b -> lt b c -> lt a c;
  sw_incomp : forall a b c, D a -> D b -> D c ->
    ~ lt a b -> ~ lt b a -> ~ lt b c -> ~ lt c b -> ~ lt a c /\ ~ lt c a }.

Record strict_total {A} (lt : A -> A -> Prop) : Prop := {
  st_irrefl : forall a, ~ lt a a;
  st_trans : forall a b c, lt a b -> lt b c -> lt a c;
  st_total : forall a b, lt a b \/ a = b \/ lt b a }.

(** The bounding box of a set of positions. *)
Definition inside (b : bounds) (p : position) : Prop :=
  px (bottom_left b) <= px p <= px (top_right b) /\
  py (bottom_left b) <= py p <= py (top_right b).
Record is_bbox (ps : list position) (b : bounds) : Prop := {
  bb_inside : forall p, In p ps -> inside b p;
  bb_left : exists p, In p ps /\ px p = px (bottom_left b);
  bb_right : exists p, In p ps /\ px p = px (top_right b);
  bb_bottom : exists p, In p ps /\ py p = py (bottom_left b);
  bb_top : exists p, In p ps /\ py p = py (top_right b) }.

(** a position is defined: neither coordinate is INT32_MAX *)
Definition located (p : position) : Prop := px p <> 2147483647 /\ py p <> 2147483647.

(** the first element of a list with a property, by splitting the list *)
Definition is_first {A} (P : A -> Prop) (l : list A) (x : A) : Prop :=
  exists l1 l2, l = l1 ++ x :: l2 /\ P x /\ forall y, In y l1 -> ~ P y.

(** operations on a TagList, and the tags added since the last clear *)
Inductive tl_op := TLAdd (k v : string) | TLClear.
Definition tl_step (ts : tag_list) (o : tl_op) : tag_list :=
  match o with TLAdd k v => tl_add ts k v | TLClear => tl_clear ts end.
Fixpoint tags_of_adds (ops : list tl_op) : list tag :=
  match ops with
  | [] => []
  | TLAdd k v :: r => mkTag k v :: tags_of_adds r
  | TLClear :: r => tags_of_adds r
  end.
Definition no_clear (ops : list tl_op) : Prop := ~ In TLClear ops.

(** operator< on objects, as a relation on (id, version) *)
Definition idver := (Z * Z)%type.
Definition obj_lt_true (a b : idver) : Prop := obj_lt (fst a) (snd a) (fst b) (snd b) = Ok true.

(** positive and negative ids of equal magnitude do not occur together in [ids] *)
Definition no_opposite (ids : list Z) : Prop :=
  forall x y, In x ids -> In y ids -> Z.abs x = Z.abs y -> x = y.

(** adding several members in a row: final list and the outcome of every call *)
Definition short_role (m : member) : Prop := Z.of_nat (String.length (m_role m)) <= 1021.
Definition add_members (ms : list member) (new : list member) : list member * list (option exn) :=
  fold_left (fun s m => let (l, e) := add_member (fst s) (m_type m) (m_ref m) (m_role m) in (l, snd s ++ [e]))
            new (ms, []).

