(** Scripts that come with osmjs and write shapefiles: /repo/osmjs/js/shape_export.js and
    /repo/osmjs/js/area.js.  Messages printed are left out, the calls of shapelib succeed (see
    Model/Shapefile.v for the others).  What a loop over the keys of an object does if it has a key twice
    depends on the version of v8; here every key is visited. *)
From Verif Require Import Base.Prelude Base.Decimal Model.Osm Model.Geom Model.Shapefile Model.Handler Model.Unicode Model.Js Model.Osmjs Model.Osm2shape Model.Scripts.
Local Open Scope Z_scope.

(** the Shapefile objects, under their file names, and the rows written *)
Record xw := mkX { x_open : list (jstr * sstate); x_rows : list orow }.
(** an object given to add *)
Definition xobj := list (jstr * jsattr).

Section Run.
  (** create_shp_object of the property geom of an object *)
  Variable shape : this -> outcome shp.
  (** what a callback gives to add: file and attributes *)
  Variable adds : rtype -> attrs -> outcome (list (jstr * xobj)).

  (** wrapper/export_shapefile.hpp 97-137, 158-174: add *)
  Definition x_add (f : jstr) (o : this) (obj : xobj) (w : xw) : outcome xw :=
    match own f (x_open w) with
    | None => AssertFail
    | Some s =>
        let (s', g) := match shape o with
                       | Ok p => add_geometry always s (Some p) true
                       | Throw e => (s, Throw e)
                       | UB => (s, UB)
                       | AssertFail => (s, AssertFail)
                       end in
        let (l, res) := js_add (ss_fields s) g (fun n => own (v8_New n) obj) in
        let! _ := res in
        Ok (mkX (set_own f s' (x_open w)) (x_rows w ++ match g with Ok _ => [mkRow f o l] | _ => [] end))
    end.
  Fixpoint x_adds (o : this) (l : list (jstr * xobj)) (w : xw) : outcome xw :=
    match l with [] => Ok w | (f, obj) :: r => let! w' := x_add f o obj w in x_adds o r w' end.
  Definition x_object (t : rtype) (o : this) (a : attrs) (w : xw) : outcome xw := let! l := adds t a in x_adds o l w.
  (** shape_export.js 36-74, area.js 20-34: the callbacks *)
  Definition x_call (c : callback) (w : xw) : outcome xw :=
    match c with
    | CObj (ONode n) => x_object RNode (OnObject (ONode n)) (n_attrs n) w
    | CObj (OWay x) => x_object RWay (OnObject (OWay x)) (w_attrs x) w
    | CArea a => x_object RArea (OnArea a) a w
    | CFinal => Ok (mkX (map (fun p => (fst p, close (snd p))) (x_open w)) (x_rows w))
    | _ => Ok w
    end.
  Fixpoint x_calls (cs : list callback) (w : xw) : outcome xw :=
    match cs with [] => Ok w | c :: r => let! w' := x_call c w in x_calls r w' end.
  (** the script opens its files, then the callbacks come *)
  Definition x_run (files : list (jstr * shpf)) (cs : list callback) : outcome xw :=
    let! os := open_files files in x_calls cs (mkX os []).
End Run.

Definition column_ (name type : string) (size : Z) : col := mkCol (lit name) (lit type) size.
Definition file_ (name type : string) (cs : list col) : jstr * shpf := (lit name, mkShpf (lit name) (lit type) cs).
(** shape_export.js 11-25 *)
Definition export_files : list (jstr * shpf) :=
  [file_ "./pois" "point" [column_ "id" "string" 12; column_ "type" "string" 32; column_ "name" "string" 32];
   file_ "./roads" "line" [column_ "id" "integer" 10; column_ "type" "string" 32; column_ "name" "string" 32; column_ "oneway" "integer" 1; column_ "maxspeed" "integer" 3];
   file_ "./landuse" "polygon" [column_ "id" "integer" 10; column_ "type" "string" 32]].
(** area.js 11-14 *)
Definition area_files : list (jstr * shpf) :=
  [file_ "./areas" "polygon" [column_ "id" "integer" 10; column_ "type" "string" 32; column_ "name" "string" 32]].
(** shape_export.js 27-30: node_tags *)
Definition node_table : list (jstr * list (jstr * jstr)) :=
  [(lit "amenity", [(lit "restaurant", lit "restaurant"); (lit "pub", lit "pub")]); (lit "shop", [(lit "supermarket", lit "supermarket")])].

(** the regular expression of shape_export.js 56: a number, perhaps a space, perhaps km/h or kmh.  It can
    only match with all digits in the first group and the space, if there is one, outside of the second. *)
Fixpoint digits_off (u : jstr) : jstr * jstr :=
  match u with
  | c :: r => if (48 <=? c) && (c <=? 57) then let (d, q) := digits_off r in (c :: d, q) else ([], u)
  | [] => ([], [])
  end.
Definition speed (u : jstr) : option jstr :=
  let (d, q) := digits_off u in
  match d with
  | [] => None
  | _ =>
      let q' := match q with c :: r => if c =? 32 then r else q | [] => [] end in
      if jeqb q' [] || jeqb q' (lit "kmh") || jeqb q' (lit "km/h") then Some d else None
  end.
(** == with a string *)
Definition is_text (v : option jstr) (s : string) : bool := match v with Some u => jeqb u (lit s) | None => false end.
Definition number_attr (n : Z) : jsattr := AVal (lit (print_Z n)) (to_i32 n).

Section Script.
  (** Int32Value() of a string *)
  Variable to_int32 : jstr -> Z.
  (** the properties every object has, from Object.prototype, and those of these in turn which are true *)
  Variable proto : jstr -> option jsattr.
  Variable proto2 : jstr -> jstr -> option jsattr.

  (** shape_export.js 38-40: the type of a tag *)
  Definition poi_type (key value : jstr) : option jsattr :=
    match own key node_table with
    | Some m => match own value m with Some t => Some (AVal t (to_int32 t)) | None => proto value end
    | None => match proto key with Some _ => proto2 key value | None => None end
    end.
  (** shape_export.js 37-44: the loop *)
  Fixpoint node_adds (a : attrs) (ks : list jstr) : outcome (list (jstr * xobj)) :=
    match ks with
    | [] => Ok []
    | k :: r =>
        let! v := tags_get (o_tags a) k in
        match poi_type k (text_or_undefined v) with
        | Some t =>
            let! name := tags_get (o_tags a) (lit "name") in
            let! l := node_adds a r in
            Ok ((lit "./pois", [(lit "id", number_attr (o_id a)); (lit "type", t); (lit "name", attr_of to_int32 name)]) :: l)
        | None => node_adds a r
        end
    end.
  (** shape_export.js 49, 51-55 *)
  Definition oneway_of (v : option jstr) : Z :=
    if is_text v "1" || is_text v "yes" || is_text v "true" then 1 else if is_text v "-1" then 2 else 0.
  (** shape_export.js 50, 56-58 *)
  Definition maxspeed_of (v : option jstr) : jsattr :=
    match v with
    | Some u => match speed u with Some d => AVal d (to_int32 d) | None => number_attr 0 end
    | None => number_attr 0
    end.
  (** shape_export.js 47-61: way *)
  Definition way_adds (a : attrs) : outcome (list (jstr * xobj)) :=
    let! h := tags_get (o_tags a) (lit "highway") in
    if truthy h then
      let! ow := tags_get (o_tags a) (lit "oneway") in
      let! ms := tags_get (o_tags a) (lit "maxspeed") in
      let! name := tags_get (o_tags a) (lit "name") in
      Ok [(lit "./roads", [(lit "id", number_attr (o_id a)); (lit "type", attr_of to_int32 h); (lit "name", attr_of to_int32 name);
                           (lit "oneway", number_attr (oneway_of ow)); (lit "maxspeed", maxspeed_of ms)])]
    else Ok [].
  (** shape_export.js 63-67: area *)
  Definition landuse_adds (a : attrs) : outcome (list (jstr * xobj)) :=
    let! v := tags_get (o_tags a) (lit "landuse") in
    if truthy v then Ok [(lit "./landuse", [(lit "id", number_attr (o_id a)); (lit "type", attr_of to_int32 v)])] else Ok [].
  Definition export_adds (t : rtype) (a : attrs) : outcome (list (jstr * xobj)) :=
    match t with
    | RNode => let! ks := js_keys (o_tags a) in node_adds a ks
    | RWay => way_adds a
    | RArea => landuse_adds a
    end.
  (** area.js 20-29: area *)
  Definition area_adds (t : rtype) (a : attrs) : outcome (list (jstr * xobj)) :=
    match t with
    | RArea =>
        let! name := tags_get (o_tags a) (lit "name") in
        let! b := tags_get (o_tags a) (lit "boundary") in
        let! u := tags_get (o_tags a) (lit "building") in
        let type := if truthy b then lit "boundary" else if truthy u then lit "building" else lit "unknown" in
        Ok [(lit "./areas", [(lit "id", number_attr (o_id a)); (lit "name", attr_of to_int32 name); (lit "type", AVal type (to_int32 type))])]
    | _ => Ok []
    end.
  Definition shape_export_js (shape : this -> outcome shp) (cs : list callback) : outcome xw := x_run shape export_adds export_files cs.
  Definition area_js (shape : this -> outcome shp) (cs : list callback) : outcome xw := x_run shape area_adds area_files cs.
End Script.
