(** The example program that shows relations with their members, examples/osmium_relation_members.cpp,
    and the clean-up of the assembler it uses (relations/assembler.hpp clean_assembled_relations), on top of
    Model/Assembler.v.  The output is a text, what is written to it is what the second pass writes to std::cout:
    the two lines about the passes and the memory statistics of assembler.hpp 296-319 are left out. *)
From Verif Require Import Base.Prelude Base.Decimal Model.Osm Model.Handler Model.Assembler Model.Convert Model.Debug.
Local Open Scope string_scope.

(** relation_info.hpp 120-134 has_all_members, assembler.hpp 244-246 clean_assembled_relations: erase(remove_if());
    the relations left stay in order, at new positions *)
Definition clean_assembled (a : asm) : asm :=
  mkAsm (filter (fun i => negb (Z.eqb (ri_need i) 0)) (a_rels a)) (a_nodes a) (a_ways a) (a_relations a) (a_want a).

(** osmium_relation_members.cpp 27-29 and 50-52 *)
Fixpoint dump_tags (indent : string) (ts : tag_list) : string :=
  match ts with
  | [] => ""
  | t :: r => indent ++ c_text (tkey t) ++ "=" ++ c_text (tvalue t) ++ nl ++ dump_tags indent r
  end.
(** osmium_relation_members.cpp 35-45: the switch; nothing for another type *)
Definition member_kind (t : ascii) : string :=
  if Ascii.eqb t "n" then "node" else if Ascii.eqb t "w" then "way" else if Ascii.eqb t "r" then "relation" else "".
(** osmium_relation_members.cpp 33-57: the loop over the members; i counts them.  members()[i] beyond the end of the
    vector is undefined. *)
Fixpoint dump_members (ms : list member) (found : list (option object)) (i : Z) : outcome string :=
  match ms with
  | [] => Ok ""
  | m :: r =>
      match found with
      | [] => UB
      | f :: fr =>
          let! rest := dump_members r fr (Z.add i 1) in
          Ok ("  [" ++ print_Z i ++ "] Member " ++ member_kind (m_type m) ++ " " ++ print_Z (m_ref m) ++ " with role '" ++ c_text (m_role m) ++ "'"
              ++ match f with
                 | Some o => nl ++ dump_tags "      " (o_tags (obj_attrs o))
                 | None => " (NOT IN INPUT FILE)" ++ nl
                 end ++ rest)
      end
  end.
(** osmium_relation_members.cpp 25-59: dump_relation; the empty pointer of an empty RelationInfo is dereferenced *)
Definition dump_relation (i : rinfo) (complete : bool) : outcome string :=
  match ri_rel i with
  | None => UB
  | Some r =>
      let! ms := dump_members (r_members r) (ri_members i) 0 in
      Ok ("Relation " ++ print_Z (o_id (r_attrs r)) ++ (if complete then nl else " (INCOMPLETE)" ++ nl)
          ++ dump_tags "  " (o_tags (r_attrs r)) ++ ms ++ nl)
  end.
Fixpoint dump_relations (l : list rinfo) : outcome string :=
  match l with
  | [] => Ok ""
  | i :: r => let! x := dump_relation i false in let! y := dump_relations r in Ok (x ++ y)
  end.

(** osmium_relation_members.cpp 75-84: complete_relation and all_members_available; the other events mean nothing
    to the program, and the nested handler is Base *)
Definition members_event (e : event) (s : asm * string) : outcome (asm * string) :=
  match e with
  | EComplete _ r ms => let! x := dump_relation (mkRI (Some r) ms 0) true in Ok (fst s, snd s ++ x)
  | EAll => let a := clean_assembled (fst s) in let! x := dump_relations (a_rels a) in Ok (a, snd s ++ x)
  | _ => Ok s
  end.
Fixpoint members_events (es : list event) (s : asm * string) : outcome (asm * string) :=
  match es with
  | [] => Ok s
  | e :: r => let! s1 := members_event e s in members_events r s1
  end.
(** osmium_relation_members.cpp 67-73: relation() and keep_member(); 18: the template arguments true, true, true *)
Definition any_relation (_ : relation) : bool := true.
Definition any_member (_ : relation) (_ : member) : bool := true.
Definition any_type (_ : otype) : bool := true.
(** the handler of the second pass.  An object's events are worked off after it has been added to all its relations, not
    in between: it makes no difference for the output unless an assertion fails. *)
Definition members_pass2 (c : callback) (s : asm * string) : (asm * string) * option halt :=
  match obind (pass2 any_type c (fst s)) (fun x => members_events (snd x) (fst x, snd s)) with
  | Ok s' => (s', None)
  | Throw e => (s, Some (HExn e))
  | UB | AssertFail => (s, Some HUB)
  end.
(** osmium_relation_members.cpp 88-110: main; both passes read the same file.  [srt] is std::sort. *)
Definition relation_members (srt : list minfo -> list minfo) (r : reading) : string * option halt :=
  match input_read (pass1 any_relation any_member srt) r (asm_new any_type) with
  | (_, Some h, _) => ("", Some h)
  | (a, None, _) => let '(s, h, _) := input_read members_pass2 r (a, "") in (snd s, h)
  end.
