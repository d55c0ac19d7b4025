(** Scripts that come with osmjs and watch the callbacks: /repo/osmjs/js/time.js and
    /repo/osmjs/js/callback_test.js, as the functions a script defines for Model/Osmjs.v.  The lines they
    print are kept in a list. *)
From Verif Require Import Base.Prelude Base.Decimal Model.Osm Model.Osmjs.
Local Open Scope Z_scope.

(** time.js 3: the variables *)
Record tms := mkTm { tm_nodes : Z; tm_ways : Z; tm_rels : Z; tm_out : list string }.
Definition tm_new : tms := mkTm 0 0 0 [].
(** numbers are doubles: 2^53 + 1 is 2^53 *)
Definition tm_incr (n : Z) : Z := if n <? 9007199254740992 then n + 1 else n.
(** time.js 5, 9, 12, 19, 26: the functions defined *)
Definition tm_func (n : string) (s : tms) : option string :=
  if existsb (String.eqb n) ["node"; "after_nodes"; "way"; "relation"; "end"]%string then Some n else None.
(** time.js 5-28 *)
Definition tm_invoke (f : string) (t : this) (s : tms) : tms * bool :=
  ((if String.eqb f "node" then mkTm (tm_incr (tm_nodes s)) (tm_ways s) (tm_rels s) (tm_out s)
    else if String.eqb f "way" then
      mkTm (tm_nodes s) (tm_incr (tm_ways s)) (tm_rels s) (if tm_ways s =? 0 then tm_out s ++ ["first way"%string] else tm_out s)
    else if String.eqb f "relation" then
      mkTm (tm_nodes s) (tm_ways s) (tm_incr (tm_rels s)) (if tm_rels s =? 0 then tm_out s ++ ["first relation"%string] else tm_out s)
    else if String.eqb f "end" then
      mkTm (tm_nodes s) (tm_ways s) (tm_rels s)
        (tm_out s ++ [("nodes: " ++ print_Z (tm_nodes s) ++ "  ways: " ++ print_Z (tm_ways s) ++ "  relations: " ++ print_Z (tm_rels s))%string])
    else s), false).

(** callback_test.js 4: the variables *)
Record cts := mkCt { ct_node : bool; ct_way : bool; ct_rel : bool; ct_area : bool; ct_out : list string }.
Definition ct_new : cts := mkCt false false false false [].
(** callback_test.js 6-43: the functions defined *)
Definition ct_func (n : string) (s : cts) : option string :=
  if existsb (String.eqb n) ["init"; "before_nodes"; "node"; "after_nodes"; "before_ways"; "way"; "after_ways";
                             "before_relations"; "relation"; "after_relations"; "area"; "end"]%string then Some n else None.
Definition ct_print (l : string) (s : cts) : cts := mkCt (ct_node s) (ct_way s) (ct_rel s) (ct_area s) (ct_out s ++ [l]).
(** callback_test.js 6-43 *)
Definition ct_invoke (f : string) (t : this) (s : cts) : cts * bool :=
  ((if String.eqb f "init" then ct_print "✔ init" s
    else if String.eqb f "before_nodes" then ct_print "✔ before_nodes" s
    else if String.eqb f "node" then
      if ct_node s then s else mkCt true (ct_way s) (ct_rel s) (ct_area s) (ct_out s ++ ["✔ node"%string])
    else if String.eqb f "after_nodes" then ct_print "✔ after_nodes" s
    else if String.eqb f "before_ways" then ct_print "✔ before_ways" s
    else if String.eqb f "way" then
      if ct_way s then s else mkCt (ct_node s) true (ct_rel s) (ct_area s) (ct_out s ++ ["✔ way"%string])
    else if String.eqb f "after_ways" then ct_print "✔ after_ways" s
    else if String.eqb f "before_relations" then ct_print "✔ before_relations" s
    else if String.eqb f "relation" then
      if ct_rel s then s else mkCt (ct_node s) (ct_way s) true (ct_area s) (ct_out s ++ ["✔ relation"%string])
    else if String.eqb f "after_relations" then ct_print "✔ after_relations" s
    else if String.eqb f "area" then
      if ct_area s then s else mkCt (ct_node s) (ct_way s) (ct_rel s) true (ct_out s ++ ["✔ area"%string])
    else if String.eqb f "end" then ct_print "✔ end" s
    else s), false).
