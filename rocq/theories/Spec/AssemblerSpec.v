(** Specifications for the relation assembler (C28-C30). *)
From Verif Require Import Base.Prelude Model.Osm Model.Handler Model.Assembler Spec.HandlerSpec.

(** the letter a relation member uses for a type of object *)
Definition letter (t : otype) : option ascii :=
  match t with NODE => Some "n"%char | WAY => Some "w"%char | RELATION => Some "r"%char | _ => None end.
(** a relation member names an object *)
Definition names (m : member) (o : object) : bool :=
  match letter (obj_type o) with Some c => Ascii.eqb (m_type m) c && (m_ref m =? obj_id o) | None => false end.
(** sorting: any order in which ids ascend *)
Definition sorts (srt : list minfo -> list minfo) : Prop :=
  forall l, Permutation (srt l) l /\ StronglySorted (fun a b => mi_id a <= mi_id b) (srt l).

Definition relations_of (os : list object) : list relation :=
  flat_map (fun o => match o with ORel r => [r] | _ => [] end) os.
(** the relations of the first run of relations in a file *)
Definition first_relations (gs : list (otype * list object)) : list relation :=
  match find (fun g => otype_eqb (fst g) RELATION) (join gs) with
  | Some g => relations_of (snd g)
  | None => []
  end.

Section S.
  Variable keep : relation -> member -> bool.
  Variable want : otype -> bool.
  (** the objects of the types asked for among the callbacks so far *)
  Definition arrived (p : list callback) : list object :=
    flat_map (fun c => match c with CObj o => if want (obj_type o) then [o] else [] | _ => [] end) p.
  (** all members to be kept are there, and there is at least one *)
  Definition complete_with (os : list object) (r : relation) : Prop :=
    (exists m, In m (r_members r) /\ keep r m = true) /\
    (forall m, In m (r_members r) -> keep r m = true -> exists o, In o os /\ names m o = true).
  (** the object for each member that is kept *)
  Definition slots (os : list object) (r : relation) : list (option object) :=
    map (fun m => if keep r m then find (names m) os else None) (r_members r).
  Definition is_member (rs : list relation) (o : object) : bool :=
    existsb (fun r => existsb (fun m => keep r m && names m o) (r_members r)) rs.
  (** the relations that become complete with object o, each once, each with its members *)
  Definition completions (rs : list relation) (p : list callback) (o : object) (es : list event) : Prop :=
    NoDup es /\
    forall e, In e es <-> exists j r,
      nth_error rs j = Some r /\ complete_with (arrived (p ++ [CObj o])) r /\ ~ complete_with (arrived p) r /\
      e = EComplete j r (slots (arrived (p ++ [CObj o])) r).
  Definition types_over (p : list callback) : Prop :=
    forall t, object_type t -> want t = true -> In (CAfter t) p.
  (** everything that happens at callback c after the callbacks p *)
  Definition events_at (rs : list relation) (p : list callback) (c : callback) (e : list event) : Prop :=
    match c with
    | CObj o =>
        if want (obj_type o)
        then exists es, completions rs p o es /\ e = es ++ (if is_member rs o then [] else [ENotIn o]) ++ [ENext c]
        else e = [ENext c]
    | CAfter t =>
        if want t
        then (types_over (p ++ [c]) /\ e = [EAll; ENext c]) \/ (~ types_over (p ++ [c]) /\ e = [ENext c])
        else e = [ENext c]
    | _ => e = [ENext c]
    end.
End S.
(** no object occurs twice *)
Definition no_repeats (os : list object) : Prop := NoDup (map (fun o => (obj_type o, obj_id o)) os).
(** a file for the second pass: each type in one run *)
Definition sorted_file (runs : list (otype * list object)) : Prop :=
  NoDup (map fst runs) /\ (forall r, In r runs -> well_typed r) /\ no_repeats (flat_map snd runs).
Definition file_calls (runs : list (otype * list object)) : list callback :=
  CInit :: flat_map bracket runs ++ [CFinal].

(* ---- over a whole file ---- *)
Definition completes (j : nat) (e : event) : Prop := exists r ms, e = EComplete j r ms.
Definition wanted (want : otype -> bool) (os : list object) : list object := filter (fun o => want (obj_type o)) os.
(** the object in a member slot is the one the member names *)
Definition right_object (m : member) (o : object) : Prop :=
  letter (obj_type o) = Some (m_type m) /\ obj_id o = m_ref m.

(* ---- multipolygons ---- *)
(** the first type tag says multipolygon or boundary *)
Definition is_multipolygon (r : relation) : Prop :=
  exists l1 t l2, o_tags (r_attrs r) = l1 ++ t :: l2 /\ tkey t = "type"%string /\
    (forall x, In x l1 -> tkey x <> "type"%string) /\
    (tvalue t = "multipolygon"%string \/ tvalue t = "boundary"%string).
Definition way_in (rs : list relation) (w : way) : Prop :=
  exists r m, In r rs /\ is_multipolygon r /\ In m (r_members r) /\ m_type m = "w"%char /\ m_ref m = o_id (w_attrs w).
(** at least four nodes, the first being the last *)
Definition area_shaped (w : way) : Prop :=
  exists x a b mid, map wn_ref (w_nodes w) = x :: a :: b :: mid ++ [x].
(** the area of a way: its attributes with the id doubled *)
Definition area_attrs (w : way) : attrs := with_id (w_attrs w) (2 * o_id (w_attrs w)).

Section Build.
  (** the multipolygon builder *)
  Variable build : relation -> list (option object) -> outcome (list attrs).
  (** the areas built for completed relations *)
  Definition areas_of (es : list event) (l : list (list attrs)) : Prop :=
    Forall2 (fun e x => match e with EComplete _ r ms => build r ms = Ok x | _ => False end) es l.
  (** a way with nodes and an id that can be doubled *)
  Definition way_ok (w : way) : Prop := w_nodes w <> [] /\ in_i64 (2 * o_id (w_attrs w)).
  (** what the nested handler gets to see at callback c after the callbacks p *)
  Definition mp_output (rs : list relation) (p : list callback) (c : callback) (out : list callback) : Prop :=
    match c with
    | CObj (OWay w) => exists es areas own,
        completions mp_keep mp_want (filter mp_select rs) p (OWay w) es /\ areas_of es areas /\
        out = map CArea (List.concat areas) ++ own ++ [c] /\
        ((own = [CArea (area_attrs w)] /\ ~ way_in rs w /\ area_shaped w) \/ (own = [] /\ (way_in rs w \/ ~ area_shaped w)))
    | _ => out = [c]
    end.
End Build.
