(** Specifications for areas: areas as plain values without a heap. *)
From Verif Require Import Base.Prelude Model.Osm Model.Float Model.Geom Model.Area Spec.GeomSpec.

(** what an area is: its attributes, nodes and geometry *)
Record varea := mkV { v_attrs : attrs; v_nodes : list way_node; v_shape : option geos }.
Record vworld := mkVW { v_area : nat -> life varea; v_view : nat -> life nat }.
Definition vput {A} (f : nat -> A) (x : nat) (v : A) : nat -> A := fun y => if Nat.eqb x y then v else f y.
Definition fits (z : Z) : bool := (- 2 ^ 63 <=? z) && (z <? 2 ^ 63).
Definition renamed (a : attrs) (id : Z) : attrs :=
  mkAttrs id (o_version a) (o_changeset a) (o_timestamp a) (o_endtime a) (o_uid a) (o_user a) (o_visible a) (o_tags a).
Definition retagged (a : attrs) (ts : tag_list) : attrs :=
  mkAttrs (o_id a) (o_version a) (o_changeset a) (o_timestamp a) (o_endtime a) (o_uid a) (o_user a) (o_visible a) ts.

(** the multipolygon of the nodes of a closed way *)
Definition way_shape (valid : list coord -> bool) (ns : list way_node) : outcome geos :=
  match ns with
  | [] => UB
  | n :: _ =>
      let cs := map (fun m => coord_of (wn_pos m)) ns in
      if wn_ref n =? wn_ref (last ns n) then if valid cs then Ok (GMulti [GPolygon cs []]) else Throw EGeos
      else Throw ERingNotClosed
  end.

Section Valid.
  Variable valid : list coord -> bool.
  Definition vstep (w : vworld) (o : op) : option (outcome (vworld * obs)) :=
    let set x a := Some (Ok (mkVW (vput (v_area w) x a) (v_view w), Done)) in
    match o with
    | FromWay x y =>
        match v_area w x with
        | Unborn => let id := 2 * o_id (w_attrs y) in
                    if fits id then set x (Alive (mkV (renamed (w_attrs y) id) (w_nodes y) None)) else Some UB
        | _ => None
        end
    | FromRelation x r =>
        match v_area w x with
        | Unborn => let id := 2 * o_id (r_attrs r) + Z.sgn (o_id (r_attrs r)) in
                    if fits id then set x (Alive (mkV (renamed (r_attrs r) id) [] None)) else Some UB
        | _ => None
        end
    | Copy x y =>
        match v_area w x, v_area w y with
        | Unborn, Alive b => if v_shape b then set x (Alive b) else Some UB
        | _, _ => None
        end
    | Assign x y =>
        match v_area w x, v_area w y with
        | Alive _, Alive b => if v_shape b then set x (Alive b) else Some UB
        | _, _ => None
        end
    | SetGeometry x g =>
        match v_area w x with
        | Alive a => set x (Alive (mkV (v_attrs a) (v_nodes a) (option_map GMulti g)))
        | _ => None
        end
    | SetTags x ts =>
        match v_area w x with
        | Alive a => set x (Alive (mkV (retagged (v_attrs a) ts) (v_nodes a) (v_shape a)))
        | _ => None
        end
    | Destroy x => match v_area w x with Alive _ => set x Dead | _ => None end
    | View v x =>
        match v_view w v, v_area w x with
        | Unborn, Alive a =>
            let views := vput (v_view w) v (Alive x) in
            match v_shape a with
            | Some _ => Some (Ok (mkVW (v_area w) views, Done))
            | None =>
                match way_shape valid (v_nodes a) with
                | Ok g => Some (Ok (mkVW (vput (v_area w) x (Alive (mkV (v_attrs a) (v_nodes a) (Some g)))) views, Done))
                | Throw e => Some (Ok (w, Thrown e))
                | UB => Some UB
                | AssertFail => Some AssertFail
                end
            end
        | _, _ => None
        end
    | Look v =>
        match v_view w v with
        | Alive x => match v_area w x with
                     | Alive a => Some (Ok (w, match v_shape a with Some g => Geometry g | None => Thrown ENoGeometry end))
                     | _ => Some UB
                     end
        | _ => None
        end
    | Attributes x => match v_area w x with Alive a => Some (Ok (w, Object (v_attrs a) (v_nodes a))) | _ => None end
    end.
  (** what a program shows; stops at the first undefined behaviour *)
  Fixpoint vrun (w : vworld) (ops : list op) : option (outcome (list obs)) :=
    match ops with
    | [] => Some (Ok [])
    | o :: r =>
        match vstep w o with
        | None => None
        | Some (Ok (w', b)) =>
            match vrun w' r with
            | None => None
            | Some q => Some (let! l := q in Ok (b :: l))
            end
        | Some (Throw e) => Some (Throw e)
        | Some UB => Some UB
        | Some AssertFail => Some AssertFail
        end
    end.
  Definition vworld_new : vworld := mkVW (fun _ => Unborn) (fun _ => Unborn).

  (** the program gives a geometry to an area that has one already *)
  Definition has_shape (w : vworld) (x : nat) : bool :=
    match v_area w x with Alive a => if v_shape a then true else false | _ => false end.
  Definition replaces (w : vworld) (o : op) : bool :=
    match o with Assign x _ => has_shape w x | SetGeometry x _ => has_shape w x | _ => false end.
  Fixpoint any_replaces (w : vworld) (ops : list op) : bool :=
    match ops with
    | [] => false
    | o :: r => replaces w o || match vstep w o with Some (Ok (w', _)) => any_replaces w' r | _ => false end
    end.
End Valid.

(** the observations of a run *)
Definition shown (q : option (outcome (world * list obs))) : option (outcome (list obs)) :=
  option_map (fun o => let! z := o in Ok (snd z)) q.

(* ---- shapes for other libraries ---- *)
Definition points_of (g : from_way) : list coord :=
  map coord_of (positions (if fw_reverse g then rev (fw_nodes g) else fw_nodes g)).
(** the rings of a polygon, outer ring first *)
Definition rings_of (g : geos) : list (list coord) := match g with GPolygon e h => e :: h | _ => [] end.
Definition is_polygon (g : geos) : Prop := exists e h, g = GPolygon e h.
