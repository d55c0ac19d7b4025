(** The two-pass relation assembler and the multipolygon assembler.
    Models /repo/include/osmium/relations/relation_info.hpp, relations/assembler.hpp and
    multipolygon/assembler.hpp.  Built with assert() enabled.  Positions in vectors are natural
    numbers: the overflow of the int and uint32 counters beyond 2^31 relations or members is not
    modelled.  clean_assembled_relations is in Model/Members.v, used_memory
    (debug output) is not modelled. *)
From Verif Require Import Base.Prelude Model.Osm Model.Handler.

Fixpoint set_nth {A} (n : nat) (x : A) (l : list A) : list A :=
  match l, n with
  | [], _ => []
  | _ :: r, O => x :: r
  | y :: r, S m => y :: set_nth m x r
  end.

(** relation_info.hpp 45-59: m_relation (None: empty pointer), m_members, m_need_members *)
Record rinfo := mkRI { ri_rel : option relation; ri_members : list (option object); ri_need : Z }.
(** relation_info.hpp 67-71: the default constructor *)
Definition ri_empty : rinfo := mkRI None [] 0.
(** relation_info.hpp 73-77 *)
Definition ri_new (r : relation) : rinfo := mkRI (Some r) (map (fun _ => None) (r_members r)) 0.
(** relation_info.hpp 90-92: need_member *)
Definition need_member (i : rinfo) : rinfo := mkRI (ri_rel i) (ri_members i) (ri_need i + 1).
(** relation_info.hpp 100-105: add_member; a null m_relation is dereferenced in the second assert *)
Definition ri_add_member (i : rinfo) (o : object) (n : nat) : outcome (rinfo * bool) :=
  if ri_need i <=? 0 then AssertFail
  else match ri_rel i with
       | None => UB
       | Some r =>
           if (n <? List.length (r_members r))%nat
           then Ok (mkRI (ri_rel i) (set_nth n (Some o) (ri_members i)) (ri_need i - 1), ri_need i - 1 =? 0)
           else AssertFail
       end.

(** assembler.hpp 52-81: MemberInfo *)
Record minfo := mkMI { mi_id : Z; mi_rel : nat; mi_pos : nat }.

(** assembler.hpp 513-519 and 362: m_relations, m_member_infos, m_want_types *)
Record asm := mkAsm { a_rels : list rinfo; a_nodes : list minfo; a_ways : list minfo; a_relations : list minfo; a_want : Z }.
Definition infos (t : otype) (a : asm) : list minfo :=
  match t with NODE => a_nodes a | WAY => a_ways a | RELATION => a_relations a | _ => [] end.
Definition put_infos (t : otype) (l : list minfo) (a : asm) : asm :=
  match t with
  | NODE => mkAsm (a_rels a) l (a_ways a) (a_relations a) (a_want a)
  | WAY => mkAsm (a_rels a) (a_nodes a) l (a_relations a) (a_want a)
  | RELATION => mkAsm (a_rels a) (a_nodes a) (a_ways a) l (a_want a)
  | _ => a
  end.
(** assembler.hpp 258-268: the switch over member.type() *)
Definition member_otype (c : ascii) : otype :=
  if Ascii.eqb c "n" then NODE else if Ascii.eqb c "w" then WAY else if Ascii.eqb c "r" then RELATION else UNKNOWN.

(** What the assembler tells its child class and the nested handler. *)
Inductive event :=
| EComplete (pos : nat) (r : relation) (ms : list (option object))  (* complete_relation *)
| ENotIn (o : object)                                   (* node/way/relation_not_in_any_relation *)
| EAll                                                  (* all_members_available *)
| ENext (c : callback).                                 (* a callback of the nested handler *)

Section Assembler.
  (** relation() of the child class: does it call add_relation()?  assembler.hpp 178-180: always *)
  Variable select : relation -> bool.
  (** keep_member() of the child class, as a function of the relation and the member *)
  Variable keep : relation -> member -> bool.
  (** the template parameters N, W, R *)
  Variable want : otype -> bool.
  (** std::sort with operator<: some order in which the ids ascend *)
  Variable srt : list minfo -> list minfo.

  (** assembler.hpp 409-412: m_want_types *)
  Definition asm_new : asm := mkAsm [] [] [] [] (Z.b2z (want NODE) + Z.b2z (want WAY) + Z.b2z (want RELATION)).

  (** assembler.hpp 254-272: the loop of add_relation *)
  Fixpoint add_members (r : relation) (ms : list member) (n : nat) (i : rinfo) (a : asm) : rinfo * asm :=
    match ms with
    | [] => (i, a)
    | m :: rest =>
        if keep r m then
          let t := member_otype (m_type m) in
          add_members r rest (S n) (need_member i)
            (put_infos t (infos t a ++ [mkMI (m_ref m) (List.length (a_rels a)) n]) a)
        else add_members r rest (S n) i a
    end.
  (** assembler.hpp 252-274: add_relation *)
  Definition add_relation (r : relation) (a : asm) : asm :=
    let (i, a') := add_members r (r_members r) 0 (ri_new r) a in
    mkAsm (a_rels a' ++ [i]) (a_nodes a') (a_ways a') (a_relations a') (a_want a').
  (** assembler.hpp 288-292: sort_member_infos *)
  Definition sort_infos (a : asm) : asm :=
    mkAsm (a_rels a) (srt (a_nodes a)) (srt (a_ways a)) (srt (a_relations a)) (a_want a).
  (** assembler.hpp 322-342: HandlerPass1 *)
  Definition pass1 (c : callback) (a : asm) : asm * option halt :=
    match c with
    | CObj (ORel r) => (if select r then add_relation r a else a, None)
    | CAfter RELATION => (sort_infos a, Some (HExn EStopReading))
    | _ => (a, None)
    end.

  (** std::equal_range (assembler.hpp 373): from the first element not below the id to the first
      one above it.  On a vector that is not sorted the C++ result is unspecified. *)
  Fixpoint lower_bound (id : Z) (l : list minfo) : list minfo :=
    match l with [] => [] | m :: r => if mi_id m <? id then lower_bound id r else l end.
  Fixpoint until_above (id : Z) (l : list minfo) : list minfo :=
    match l with [] => [] | m :: r => if id <? mi_id m then [] else m :: until_above id r end.
  Definition equal_range (id : Z) (l : list minfo) : list minfo := until_above id (lower_bound id l).

  (** assembler.hpp 380-389: the loop of find_and_add_object *)
  Fixpoint add_object (o : object) (ms : list minfo) (rels : list rinfo) : outcome (list rinfo * list event) :=
    match ms with
    | [] => Ok (rels, [])
    | m :: rest =>
        if negb (mi_id m =? obj_id o) then AssertFail
        else match nth_error rels (mi_rel m) with
             | None => AssertFail
             | Some i =>
                 match ri_rel i with
                 | None => UB
                 | Some r =>
                     if (mi_pos m <? List.length (r_members r))%nat then
                       let! (i', done) := ri_add_member i o (mi_pos m) in
                       let rels' := set_nth (mi_rel m) (if done then ri_empty else i') rels in
                       let! (rels'', es) := add_object o rest rels' in
                       Ok (rels'', (if done then [EComplete (mi_rel m) r (ri_members i')] else []) ++ es)
                     else AssertFail
                 end
             end
    end.
  (** assembler.hpp 371-392: find_and_add_object *)
  Definition find_and_add (o : object) (a : asm) : outcome (asm * list event * bool) :=
    let range := equal_range (obj_id o) (infos (obj_type o) a) in
    match range with
    | [] => Ok (a, [], false)
    | _ =>
        let! (rels, es) := add_object o range (a_rels a) in
        Ok (mkAsm rels (a_nodes a) (a_ways a) (a_relations a) (a_want a), es, true)
    end.
  (** assembler.hpp 399-405: after *)
  Definition after_type (t : otype) (a : asm) : asm * list event :=
    let a1 := put_infos t [] a in
    let a2 := mkAsm (a_rels a1) (a_nodes a1) (a_ways a1) (a_relations a1) (a_want a1 - 1) in
    (a2, if a_want a2 =? 0 then [EAll] else []).
  (** assembler.hpp 414-480: HandlerPass2; the three times repeated node/way/relation and after_
      methods are written once, indexed by the type.  It has no area(). *)
  Definition pass2 (c : callback) (a : asm) : outcome (asm * list event) :=
    match c with
    | CObj o =>
        if want (obj_type o) then
          let! (a', es, found) := find_and_add o a in
          Ok (a', es ++ (if found then [] else [ENotIn o]) ++ [ENext c])
        else Ok (a, [ENext c])
    | CAfter t =>
        if want t then let (a', es) := after_type t a in Ok (a', es ++ [ENext c]) else Ok (a, [ENext c])
    | _ => Ok (a, [ENext c])
    end.
  (** the events of a list of callbacks, callback by callback *)
  Fixpoint pass2_all (cs : list callback) (a : asm) : outcome (asm * list (list event)) :=
    match cs with
    | [] => Ok (a, [])
    | c :: rest =>
        let! (a1, e) := pass2 c a in
        let! (a2, es) := pass2_all rest a1 in
        Ok (a2, e :: es)
    end.
End Assembler.

(** multipolygon/assembler.hpp 60-71: relation(); strcmp on the value of the first type tag *)
Definition mp_select (r : relation) : bool :=
  match get_value_by_key (o_tags (r_attrs r)) "type" with
  | None => false
  | Some t => String.eqb t "multipolygon" || String.eqb t "boundary"
  end.
(** multipolygon/assembler.hpp 78-86: keep_member *)
Definition mp_keep (_ : relation) (m : member) : bool := Ascii.eqb (m_type m) "w".
(** multipolygon/assembler.hpp 47: the template arguments false, true, false *)
Definition mp_want (t : otype) : bool := match t with WAY => true | _ => false end.
(** osm/area.hpp 79-84: the attributes of Area(way) *)
Definition with_id (a : attrs) (id : Z) : attrs :=
  mkAttrs id (o_version a) (o_changeset a) (o_timestamp a) (o_endtime a) (o_uid a) (o_user a) (o_visible a) (o_tags a).
Definition area_of_way (w : way) : outcome attrs :=
  let! id := area_id_of_way (o_id (w_attrs w)) in Ok (with_id (w_attrs w) id).
(** multipolygon/assembler.hpp 88-95: way_not_in_any_relation *)
Definition mp_way (w : way) : outcome (list callback) :=
  let! c := is_closed (w_nodes w) in
  if c && (4 <=? List.length (w_nodes w))%nat then let! a := area_of_way w in Ok [CArea a] else Ok [].
Section Multipolygon.
  (** builder.build() of multipolygon/builder.hpp, as a function of the RelationInfo *)
  Variable build : relation -> list (option object) -> outcome (list attrs).
  Variable srt : list minfo -> list minfo.
  (** multipolygon/assembler.hpp 88-107: what an event means for the nested handler *)
  Definition mp_event (e : event) : outcome (list callback) :=
    match e with
    | EComplete _ r ms => let! l := build r ms in Ok (map CArea l)
    | ENotIn (OWay w) => mp_way w
    | ENotIn _ => Ok []
    | EAll => Ok []
    | ENext c => Ok [c]
    end.
  Fixpoint mp_events (es : list event) : outcome (list callback) :=
    match es with
    | [] => Ok []
    | e :: r => let! x := mp_event e in let! y := mp_events r in Ok (x ++ y)
    end.
  (** the multipolygon assembler's second pass: the callbacks the nested handler gets.  The
      nested handler is assumed not to throw. *)
  Definition mp_pass2 (c : callback) (a : asm) : outcome (asm * list callback) :=
    let! (a', es) := pass2 mp_want c a in let! cs := mp_events es in Ok (a', cs).
  Fixpoint mp_all (cs : list callback) (a : asm) : outcome (asm * list (list callback)) :=
    match cs with
    | [] => Ok (a, [])
    | c :: rest =>
        let! (a1, e) := mp_pass2 c a in
        let! (a2, es) := mp_all rest a1 in
        Ok (a2, e :: es)
    end.
End Multipolygon.
