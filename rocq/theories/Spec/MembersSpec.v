(** Specification of the program that shows relations with their members: which relations are shown, and how. *)
From Verif Require Import Base.Prelude Base.Decimal Model.Osm Model.Handler Model.Debug Spec.HandlerSpec Spec.AssemblerSpec Spec.ToshapeSpec.
Local Open Scope string_scope.

(** what is shown of a relation: whether it is complete, and the object of each member, if there is one *)
Record shown := mkShown { sh_relation : relation; sh_complete : bool; sh_found : list (option object) }.

(* ---- the layout, line by line ---- *)
Definition tag_lines (indent : string) (ts : tag_list) : list string :=
  map (fun t => indent ++ c_text (tkey t) ++ "=" ++ c_text (tvalue t)) ts.
Definition kind (t : ascii) : string :=
  match t with "n"%char => "node" | "w"%char => "way" | "r"%char => "relation" | _ => "" end.
Definition member_lines (x : nat * (member * option object)) : list string :=
  let '(i, (m, f)) := x in
  let line := "  [" ++ print_Z (Z.of_nat i) ++ "] Member " ++ kind (m_type m) ++ " " ++ print_Z (m_ref m)
                ++ " with role '" ++ c_text (m_role m) ++ "'" in
  match f with
  | Some o => line :: tag_lines "      " (o_tags (obj_attrs o))
  | None => [line ++ " (NOT IN INPUT FILE)"]
  end.
Definition shown_lines (x : shown) : list string :=
  let r := sh_relation x in
  ("Relation " ++ print_Z (o_id (r_attrs r)) ++ (if sh_complete x then "" else " (INCOMPLETE)"))
  :: tag_lines "  " (o_tags (r_attrs r))
  ++ flat_map member_lines (combine (seq 0 (List.length (r_members r))) (combine (r_members r) (sh_found x)))
  ++ [""].
(** lines as text *)
Fixpoint text_of (ls : list string) : string :=
  match ls with [] => "" | l :: r => l ++ nl ++ text_of r end.
Definition report (l : list shown) : string := text_of (flat_map shown_lines l).

(* ---- which ---- *)
(** the object of a member in the file, if it is there *)
Definition found_in (os : list object) (m : member) (f : option object) : Prop :=
  match f with
  | Some o => In o os /\ right_object m o
  | None => forall o, In o os -> ~ right_object m o
  end.
(** the relation has members and all are in the file *)
Definition all_there (os : list object) (r : relation) : Prop :=
  r_members r <> [] /\ forall m, In m (r_members r) -> exists o, In o os /\ right_object m o.
(** a member is not in the file *)
Definition one_missing (os : list object) (r : relation) : Prop :=
  exists m, In m (r_members r) /\ forall o, In o os -> ~ right_object m o.
(** an entry of the report is right *)
Definition right_entry (os : list object) (complete : bool) (r : relation) (x : shown) : Prop :=
  sh_relation x = r /\ sh_complete x = complete /\ Forall2 (found_in os) (r_members r) (sh_found x).
(** the objects of each type are together, and no object is there twice *)
Definition in_order (gs : list (otype * list object)) : Prop :=
  (forall g, In g gs -> well_typed g) /\ NoDup (map fst (join gs)) /\ no_repeats (flat_map snd gs).
(** the file has objects (or at least a group) of all types *)
Definition all_types (gs : list (otype * list object)) : Prop :=
  forall t, object_type t -> In t (map fst gs).
