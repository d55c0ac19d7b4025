(** Specification of the scripts that export fixed sets of shapefiles. *)
From Verif Require Import Base.Prelude Base.Decimal Model.Osm Model.Geom Model.Shapefile Model.Handler Model.Unicode Model.Js Model.Osmjs Model.Osm2shape
  Spec.UnicodeSpec Spec.JsSpec Spec.Osm2shapeSpec.
Local Open Scope Z_scope.

(** a shapefile: name, kind, columns *)
Definition xfile := (chars * kind * list column)%type.
(** a row to be written: file and values *)
Definition xrow := (chars * list (chars * jsattr))%type.
Definition cell_of (cells : list (chars * jsattr)) (n : chars) : jsattr := match find (fun p => ceq (fst p) n) cells with Some p => snd p | None => ANull end.
Definition col_ (n : string) (t : ctype) (z : Z) : column := (ascii_text n, t, Some z).
Definition export_tables : list xfile :=
  [(ascii_text "./pois", Points, [col_ "id" CString 12; col_ "type" CString 32; col_ "name" CString 32]);
   (ascii_text "./roads", Lines, [col_ "id" CInteger 10; col_ "type" CString 32; col_ "name" CString 32; col_ "oneway" CInteger 1; col_ "maxspeed" CInteger 3]);
   (ascii_text "./landuse", Polygons, [col_ "id" CInteger 10; col_ "type" CString 32])].
Definition area_tables : list xfile := [(ascii_text "./areas", Polygons, [col_ "id" CInteger 10; col_ "type" CString 32; col_ "name" CString 32])].

Section Says.
  Variable to_int32 : jstr -> Z.
  Definition number (n : Z) : jsattr := AVal (ascii_text (print_Z n)) (to_i32 n).
  Definition words (v : chars) : jsattr := AVal (utf16 v) (to_int32 (utf16 v)).
  Definition words_or_null (v : option chars) : jsattr := match v with Some v => words v | None => ANull end.
  Definition tag_ (kvs : list (chars * chars)) (k : string) : option chars := first_value (ascii_text k) kvs.
  (** the tags that make a node a point of interest *)
  Definition poi_tags : list (string * string) := [("amenity", "restaurant"); ("amenity", "pub"); ("shop", "supermarket")]%string.
  Definition is_poi (kv : chars * chars) : bool := existsb (fun p => ceq (fst kv) (ascii_text (fst p)) && ceq (snd kv) (ascii_text (snd p))) poi_tags.
  (** a speed: a number, perhaps a space, perhaps km/h or kmh *)
  Definition speed_text (v d : chars) : Prop :=
    d <> [] /\ Forall (fun c => 48 <= c <= 57) d /\
    exists sp u, v = d ++ sp ++ u /\ (sp = [] \/ sp = [32]) /\ In u (map ascii_text [""; "kmh"; "km/h"]%string).
  Inductive speed_says (v : option chars) : jsattr -> Prop :=
  | sp_some t d : v = Some t -> speed_text t d -> speed_says v (words d)
  | sp_none : (forall t d, v = Some t -> ~ speed_text t d) -> speed_says v (number 0).
  Definition oneway_says (v : option chars) : Z :=
    match v with
    | Some t => if existsb (fun s => ceq t (ascii_text s)) ["1"; "yes"; "true"]%string then 1 else if ceq t (ascii_text "-1") then 2 else 0
    | None => 0
    end.
  Definition row_ (file : string) (cells : list (string * jsattr)) : xrow := (ascii_text file, map (fun p => (ascii_text (fst p), snd p)) cells).
  (** what shape_export.js is to write for an object *)
  Definition export_says (t : rtype) (id : Z) (kvs : list (chars * chars)) (l : list xrow) : Prop :=
    match t with
    | RNode => l = map (fun kv => row_ "./pois" [("id", number id); ("type", words (snd kv)); ("name", words_or_null (tag_ kvs "name"))]%string) (filter is_poi kvs)
    | RWay =>
        match tag_ kvs "highway" with
        | Some (c :: v) => exists ms, speed_says (tag_ kvs "maxspeed") ms /\
            l = [row_ "./roads" [("id", number id); ("type", words (c :: v)); ("name", words_or_null (tag_ kvs "name"));
                                 ("oneway", number (oneway_says (tag_ kvs "oneway"))); ("maxspeed", ms)]%string]
        | _ => l = []
        end
    | RArea => match tag_ kvs "landuse" with Some (c :: v) => l = [row_ "./landuse" [("id", number id); ("type", words (c :: v))]%string] | _ => l = [] end
    end.
  Definition has_text (v : option chars) : bool := match v with Some (_ :: _) => true | _ => false end.
  (** what area.js is to write *)
  Definition area_says (t : rtype) (id : Z) (kvs : list (chars * chars)) (l : list xrow) : Prop :=
    match t with
    | RArea => l = [row_ "./areas" [("id", number id); ("name", words_or_null (tag_ kvs "name"));
        ("type", words (ascii_text (if has_text (tag_ kvs "boundary") then "boundary" else if has_text (tag_ kvs "building") then "building" else "unknown")))]%string]
    | _ => l = []
    end.
End Says.

Section Rows.
  Variable shape : this -> outcome shp.
  Variable files : list xfile.
  Variable says : rtype -> Z -> list (chars * chars) -> list xrow -> Prop.
  (** a row as it was written *)
  Definition row_is (o : this) (x : xrow) (r : orow) : Prop :=
    or_file r = utf16 (fst x) /\ or_object r = o /\
    exists k cols, In (fst x, k, cols) files /\ fits shape k o /\ List.length (or_values r) = List.length cols /\
      forall i c, nth_error cols i = Some c -> exists d, nth_error (or_values r) i = Some d /\ written (column_field c) (Z.of_nat i) (cell_of (snd x) (fst (fst c))) d.
  (** the rows of an object; none if its geometry does not fit *)
  Inductive rows_from (o : this) : list xrow -> list orow -> Prop :=
  | xf_nil : rows_from o [] []
  | xf_row x r l rs : row_is o x r -> rows_from o l rs -> rows_from o (x :: l) (r :: rs)
  | xf_unfit x k cols l rs : In (fst x, k, cols) files -> ~ fits shape k o -> rows_from o l rs -> rows_from o (x :: l) rs.
  Inductive exported : list callback -> list orow -> Prop :=
  | xa_nil : exported [] []
  | xa_other c cs rs : subject c = None -> exported cs rs -> exported (c :: cs) rs
  | xa_object c t o a kvs l cs r1 rs : subject c = Some (t, o, a) -> o_tags a = tags_of kvs -> says t (o_id a) kvs l -> rows_from o l r1 -> exported cs rs ->
      exported (c :: cs) (r1 ++ rs).
End Rows.

(** objects: tags with different keys, texts of ordinary length that are not cut inside of a character, none
    of the names every Javascript object has; a geometry or none *)
Definition tags_fine (proto : jstr -> option jsattr) (kvs : list (chars * chars)) : Prop :=
  NoDup (map fst kvs) /\
  Forall (fun kv => short_text (fst kv) /\ short_text (snd kv) /\ ~ splits 256 (snd kv) /\ proto (utf16 (fst kv)) = None /\
                    (In (fst kv) (map ascii_text ["amenity"; "shop"]%string) -> proto (utf16 (snd kv)) = None)) kvs.
Definition export_ok (proto : jstr -> option jsattr) (shape : this -> outcome shp) (c : callback) : Prop :=
  c <> CFinal /\
  forall t o a, subject c = Some (t, o, a) ->
    - 9007199254740992 <= o_id a <= 9007199254740992 /\
    (exists kvs, o_tags a = tags_of kvs /\ tags_fine proto kvs) /\
    (shape o = Throw EIllegalGeometry \/ exists p, shape o = Ok p /\ 0 <= s_vertices p < 1073741824).
