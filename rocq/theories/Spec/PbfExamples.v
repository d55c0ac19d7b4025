(** Example objects and configurations for PBF files. *)
From Verif Require Import Base.Prelude Model.Osm Model.Utils Model.OsmFile Model.Handler Model.Pbf Spec.PbfSpec.

Definition ex_cfg : pcfg := mkCfg true true true FtOSM 100 1000 "osmium".
Definition ex_cfg_plain : pcfg := mkCfg false false true FtOSM 100 1000 "osmium".
Definition ex_attrs (id : Z) (ts : tag_list) : attrs := mkAttrs id 3 42 1234567890 0 5 "joto" true ts.
Definition ex_n1 : node := mkNode (ex_attrs 17 [mkTag "amenity" "pub"; mkTag "name" "The Anchor"]) (mkPos 101234567 511234567).
Definition ex_node1 : object := ONode ex_n1.
Definition ex_node2 : object := ONode (mkNode (ex_attrs 16 []) (mkPos (-3) invalid_coord)).
Definition ex_way : object := OWay (mkWay (ex_attrs (-5) [mkTag "highway" "name"]) [mkWN 17 undef_pos; mkWN 16 undef_pos; mkWN 17 (mkPos 1 2)]).
Definition ex_rel : object :=
  ORel (mkRelation (ex_attrs 9 [mkTag "type" "route"]) [mkMember "w" (-5) "forward"; mkMember "n" 17 ""]).
Definition ex_objects : list object := [ex_node1; ex_node2; ex_way; ex_rel].
(** objects without anything, and a configuration without metadata *)
Definition ex_bare (id : Z) : attrs := mkAttrs id 0 0 0 0 0 "" true [].
Definition ex_bare_way (id : Z) : object := OWay (mkWay (ex_bare id) []).
Definition ex_bare_rel (id : Z) (ms : list member) : relation := mkRelation (ex_bare id) ms.
Definition ex_mixed : list object := [ex_bare_way 1; ORel (ex_bare_rel 1 []); ex_bare_way 2].
Definition ex_cfg_bare : pcfg := mkCfg true false false FtOSM 100 1000 "osmium".
(** a node at a place and time, and configurations with some granularities *)
Definition ex_at (x t : Z) : node := mkNode (mkAttrs 1 1 1 t 0 1 "joto" true []) (mkPos x x).
Definition ex_gran (g dg : Z) : pcfg := mkCfg true false true FtOSM g dg "osmium".
(** blocks which are not made by the writer: a tag with a key that is not in the string table,
    dense nodes without as many versions *)
Definition ex_bad_index : pblock := mkPB [""%string] [mkPG [mkPN (mkPC 1 [7] [0] None) 0 0] None [] []] 100 0 0 1000.
Definition ex_bad_dense : pblock :=
  mkPB [""%string] [mkPG [] (Some (mkDN [1; 1] (Some (mkDI [1] [0] [0] [0] [0] [])) [0; 0] [0; 0] [])) [] []] 100 0 0 1000.
(** a block with dense nodes *)
Definition ex_good : pblock :=
  mkPB [""%string; "k"%string; "v"%string]
    [mkPG [] (Some (mkDN [5; 1] (Some (mkDI [1; 1] [10; 0] [3; 0] [1; 0] [2; -1] [])) [100; 1] [200; -1] [1; 2; 0; 0])) [] []] 100 0 0 1000.
