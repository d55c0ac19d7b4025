(** Example data for the XML theorems. *)
From Verif Require Import Base.Prelude Model.Osm Model.OsmFile Model.Handler Model.Xml Spec.XmlSpec Spec.XmlText.
Local Open Scope string_scope.
Local Open Scope Z_scope.
Definition ex_attrs (id ver : Z) (vis : bool) : attrs :=
  mkAttrs id ver 7 1262304000 0 5 "a<b>&""c" vis [mkTag "name" "1 < 2"; mkTag "name" ""].
Definition ex_node (id ver : Z) (vis : bool) : object := ONode (mkNode (ex_attrs id ver vis) (mkPos (-13) 899999999)).
Definition ex_way (id ver : Z) (vis : bool) : object :=
  OWay (mkWay (ex_attrs id ver vis) [mkWN 3 undef_pos; mkWN (-9223372036854775808) undef_pos]).
Definition ex_relation (id ver : Z) (vis : bool) : object :=
  ORel (mkRelation (ex_attrs id ver vis) [mkMember "n" 3 "stop"; mkMember "r" 1 ""]).
Definition ex_objects : list object := [ex_node (-5) 1 true; ex_way 7 2 true; ex_node 8 3 true; ex_relation 4294967297 4 false; ex_way 9 1 true].
Definition ex_bounds : bounds := mkBounds (mkPos (-10) (-20)) (mkPos 30 40).
(** the text the writer produces *)
Definition xml_file (ft : ftype) (g : string) (b : bounds) (os : list object) : string :=
  match write_xml tw_call tw_free tw_new ft g b os with (w, _, _) => tw_out w end.
(** reading a text in pieces of n bytes, or fewer at the end *)
Fixpoint pieces (n fuel : nat) (s : string) : list string :=
  match fuel with
  | O => []
  | S f => match s with EmptyString => [] | _ => substring 0 n s :: pieces n f (substring n (String.length s) s) end
  end.
Definition read_text (n : nat) (s : string) : xresult := read_xml xp_parse xp_new (map Some (pieces n (String.length s) s)).
