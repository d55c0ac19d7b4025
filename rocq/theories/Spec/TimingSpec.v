(** Specification of the scripts that watch the callbacks. *)
From Verif Require Import Base.Prelude Base.Decimal Model.Osm Model.Handler Spec.ScriptsSpec.
Local Open Scope Z_scope.

(** the objects among callbacks *)
Definition objects_in (cs : list callback) : list object := flat_map (fun c => match c with CObj o => [o] | _ => [] end) cs.
(** how many objects of a type there are; numbers of Javascript end at 2^53 *)
Definition number_of_type (t : otype) (os : list object) : string :=
  print_Z (Z.min (Z.of_nat (List.length (filter (fun o => otype_eqb (obj_type o) t) os))) 9007199254740992).
(** what time.js is to print: the types of objects other than nodes when they come first, then the numbers *)
Definition time_lines (os : list object) : list string :=
  distinct string_dec (flat_map (fun o => match o with ONode _ => [] | OWay _ => ["first way"] | ORel _ => ["first relation"] end%string) os) ++
  [("nodes: " ++ number_of_type NODE os ++ "  ways: " ++ number_of_type WAY os ++ "  relations: " ++ number_of_type RELATION os)%string].

(** the name of a callback, if it is one for scripts; objects and areas are announced only once *)
Definition callback_line (c : callback) : list string :=
  match c with
  | CInit => ["✔ init"]
  | CBefore NODE => ["✔ before_nodes"] | CBefore WAY => ["✔ before_ways"] | CBefore RELATION => ["✔ before_relations"] | CBefore _ => []
  | CObj (ONode _) => ["✔ node"] | CObj (OWay _) => ["✔ way"] | CObj (ORel _) => ["✔ relation"]
  | CAfter NODE => ["✔ after_nodes"] | CAfter WAY => ["✔ after_ways"] | CAfter RELATION => ["✔ after_relations"] | CAfter _ => []
  | CArea _ => ["✔ area"]
  | CFinal => ["✔ end"]
  end%string.
Definition only_once (c : callback) : Prop := match c with CObj _ | CArea _ => True | _ => False end.
(** the lines for a callback [c] after the callbacks [p] *)
Definition announced (p : list callback) (c : callback) (lines : list string) : Prop :=
  (only_once c -> (exists c', In c' p /\ callback_line c' = callback_line c) -> lines = []) /\
  (only_once c -> (forall c', In c' p -> callback_line c' <> callback_line c) -> lines = callback_line c) /\
  (~ only_once c -> lines = callback_line c).
