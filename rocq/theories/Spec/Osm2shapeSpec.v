(** Specification of the framework for exports to shapefiles: what a configuration says, in terms of
    characters. *)
From Verif Require Import Base.Prelude Base.Decimal Model.Osm Model.Geom Model.Shapefile Model.Handler Model.Unicode Model.Js Model.Osmjs Model.Osm2shape
  Spec.UnicodeSpec Spec.JsSpec.
Local Open Scope Z_scope.

Definition chars : Type := list Z.
Inductive kind := Points | Lines | Polygons.
Inductive ctype := CInteger | CString | CBool | CDouble.
Inductive fpart := DType (k : kind) | DColumn (name : chars) (t : ctype) (size : option Z) | DFilename (name : chars).
Inductive rpart := DOutput (name : chars) | DAttr (attr : chars) (key : option chars).
(** the values a rule is for: none given, a text, a list *)
Inductive want := WNull | WText (t : chars) | WList (l : list chars).
(** a configuration is a list of these *)
Inductive decl := File (name : chars) (parts : list fpart) | Rule (on : rtype) (key : chars) (w : want) (parts : list rpart).

(* ---- as a script ---- *)
Definition kind_name (k : kind) : jstr := ascii_text (match k with Points => "point" | Lines => "line" | Polygons => "polygon" end).
Definition ctype_name (t : ctype) : jstr :=
  ascii_text (match t with CInteger => "integer" | CString => "string" | CBool => "bool" | CDouble => "double" end).
Definition fpart_call (p : fpart) : fcall :=
  match p with DType k => FType (kind_name k) | DColumn n t z => FColumn (utf16 n) (ctype_name t) z | DFilename n => FFilename (utf16 n) end.
Definition rpart_call (p : rpart) : rcall :=
  match p with DOutput n => ROutput (utf16 n) | DAttr a k => RAttr (utf16 a) (option_map utf16 k) end.
Definition want_value (w : want) : jvalue :=
  match w with WNull => VNull | WText t => VText (utf16 t) | WList l => VList (map utf16 l) end.
Definition script (ds : list decl) : list stmt :=
  map (fun d => match d with
                | File n ps => SFile (utf16 n) (map fpart_call ps)
                | Rule t k w ps => SRule t (utf16 k) (want_value w) (map rpart_call ps)
                end) ds.

(* ---- what it says ---- *)
Definition ceq (a b : chars) : bool := if list_eq_dec Z.eq_dec a b then true else false.
(** the last of the things chosen *)
Definition final {A B} (f : A -> option B) (l : list A) : option B :=
  fold_left (fun x a => match f a with Some b => Some b | None => x end) l None.
(** a later declaration of a name replaces the earlier one *)
Definition declared (ds : list decl) (name : chars) : option (list fpart) :=
  final (fun d => match d with File n ps => if ceq n name then Some ps else None | _ => None end) ds.
Definition file_kind (ps : list fpart) : kind :=
  match final (fun p => match p with DType k => Some k | _ => None end) ps with Some k => k | None => Points end.
Definition column := (chars * ctype * option Z)%type.
Definition columns (ps : list fpart) : list column := flat_map (fun p => match p with DColumn n t z => [(n, t, z)] | _ => [] end) ps.
Definition output (ps : list rpart) : option chars := final (fun p => match p with DOutput n => Some n | _ => None end) ps.
(** the key of the tag that goes into a column *)
Definition source (ps : list rpart) (name : chars) : option chars :=
  final (fun p => match p with DAttr a k => if ceq a name then Some (match k with Some k => k | None => a end) else None | _ => None end) ps.

(** a rule may only mention files declared before it and their columns *)
Definition rule_says (before : list decl) (ps : list rpart) : Prop :=
  forall a p b, ps = a ++ p :: b ->
    match p with
    | DOutput n => declared before n <> None
    | DAttr x _ => exists n f, output a = Some n /\ declared before n = Some f /\ exists t z, In (DColumn x t z) f
    end.
Definition config_says (ds : list decl) : Prop :=
  forall a t k w ps b, ds = a ++ Rule t k w ps :: b -> rule_says a ps.

(** the values a rule is for; one of several texts separated by bars *)
Definition piece (t v : chars) : Prop := ~ In bar v /\ exists a b, bar :: t ++ [bar] = a ++ (bar :: v ++ [bar]) ++ b.
Definition accepts (w : want) (v : chars) : Prop :=
  match w with
  | WNull => True
  | WText t => t = [42] \/ piece t v
  | WList l => l = [[42]] \/ In v l
  end.
Definition tags_of (kvs : list (chars * chars)) : tag_list := map (fun kv => mkTag (utf8 (fst kv)) (utf8 (snd kv))) kvs.
Definition selected (key : chars) (w : want) (kvs : list (chars * chars)) : Prop :=
  exists v, first_value key kvs = Some v /\ v <> [] /\ accepts w v.

(** shapelib's view of files and columns *)
Definition kind_shape (k : kind) : shptype := match k with Points => SHPT_POINT | Lines => SHPT_ARC | Polygons => SHPT_POLYGON end.
Definition column_size (z : option Z) : Z := match z with Some n => n | None => 1 end.
Definition column_field (c : column) : field :=
  let '(n, t, z) := c in
  match t with
  | CInteger => mkField (utf8 n) FTInteger (column_size z) 0
  | CString => mkField (utf8 n) FTString (column_size z) 0
  | CBool => mkField (utf8 n) FTLogical 1 0
  | CDouble => mkField (utf8 n) FTDouble (column_size z) 0
  end.
(** columns shapefiles can have *)
Definition column_ok (c : column) : Prop :=
  let '(n, _, z) := c in plain n /\ 1 <= slen (utf8 n) <= 11 /\ int32_min <= column_size z <= 255.
Definition file_ok (ps : list fpart) : Prop := Forall column_ok (columns ps) /\ Z.of_nat (List.length (columns ps)) <= 2047.

Definition id_chars : chars := [105; 100].
(** what a rule puts into a column *)
Definition cell (to_int32 : jstr -> Z) (id : Z) (kvs : list (chars * chars)) (ps : list rpart) (name : chars) : jsattr :=
  match source ps name with
  | Some k => match first_value k kvs with Some v => AVal (utf16 v) (to_int32 (utf16 v)) | None => ANull end
  | None => if ceq name id_chars then AVal (ascii_text (print_Z id)) (to_i32 id) else ANull
  end.

(** objects the rules are about *)
Definition subject (c : callback) : option (rtype * this * attrs) :=
  match c with
  | CObj (ONode n) => Some (RNode, OnObject (ONode n), n_attrs n)
  | CObj (OWay w) => Some (RWay, OnObject (OWay w), w_attrs w)
  | CArea a => Some (RArea, OnArea a, a)
  | _ => None
  end.

Section Rows.
  Variable to_int32 : jstr -> Z.
  Variable shape : this -> outcome shp.
  Variable ds : list decl.

  (** the geometry of the object can go into a file of this kind *)
  Definition fits (k : kind) (o : this) : Prop := exists p, shape o = Ok p /\ s_type p = kind_shape k.
  (** the row a rule makes *)
  Definition row_says (id : Z) (kvs : list (chars * chars)) (o : this) (name : chars) (ps : list rpart) (r : orow) : Prop :=
    or_file r = utf16 name /\ or_object r = o /\
    exists f, declared ds name = Some f /\ fits (file_kind f) o /\
      List.length (or_values r) = List.length (columns f) /\
      forall i c, nth_error (columns f) i = Some c ->
        exists d, nth_error (or_values r) i = Some d /\ written (column_field c) (Z.of_nat i) (cell to_int32 id kvs ps (fst (fst c))) d.
  (** the rows for one object: from every rule of its type that selects it, in order, if the geometry fits *)
  Inductive rows_for (t : rtype) (o : this) (id : Z) (kvs : list (chars * chars)) : list decl -> list orow -> Prop :=
  | rf_nil : rows_for t o id kvs [] []
  | rf_file n ps l rs : rows_for t o id kvs l rs -> rows_for t o id kvs (File n ps :: l) rs
  | rf_not t' k w ps l rs : t' <> t \/ ~ selected k w kvs -> rows_for t o id kvs l rs -> rows_for t o id kvs (Rule t' k w ps :: l) rs
  | rf_unfit k w ps n f l rs : selected k w kvs -> output ps = Some n -> declared ds n = Some f -> ~ fits (file_kind f) o ->
      rows_for t o id kvs l rs -> rows_for t o id kvs (Rule t k w ps :: l) rs
  | rf_row k w ps n r l rs : selected k w kvs -> output ps = Some n -> row_says id kvs o n ps r ->
      rows_for t o id kvs l rs -> rows_for t o id kvs (Rule t k w ps :: l) (r :: rs).
  (** the rows for all objects, given with the characters of their tags *)
  Inductive rows_all : list callback -> list orow -> Prop :=
  | ra_nil : rows_all [] []
  | ra_other c cs rs : subject c = None -> rows_all cs rs -> rows_all (c :: cs) rs
  | ra_object c t o a kvs cs r1 rs : subject c = Some (t, o, a) -> o_tags a = tags_of kvs -> rows_for t o (o_id a) kvs ds r1 -> rows_all cs rs ->
      rows_all (c :: cs) (r1 ++ rs).

  (** objects of a file: tags with texts of ordinary length; a geometry or none; and values the columns of
      the file of a rule can take *)
  Definition object_ok (t : rtype) (o : this) (a : attrs) : Prop :=
    (exists kvs, o_tags a = tags_of kvs /\ Forall (fun kv => short_text (fst kv) /\ short_text (snd kv)) kvs /\
      forall k w ps n f c, In (Rule t k w ps) ds -> selected k w kvs -> output ps = Some n -> declared ds n = Some f -> fits (file_kind f) o ->
        In c (columns f) -> usable (column_field c) (cell to_int32 (o_id a) kvs ps (fst (fst c)))) /\
    (shape o = Throw EIllegalGeometry \/ exists p, shape o = Ok p /\ 0 <= s_vertices p < 1073741824).
  Definition callback_ok (c : callback) : Prop :=
    match c with CInit | CFinal => False | _ => forall t o a, subject c = Some (t, o, a) -> object_ok t o a end.
End Rows.

(** Javascript does not take the name for an index *)
Definition named (t : chars) : Prop := forall n, 0 <= n < 4294967295 -> t <> ascii_text (print_Z n).
(** the texts of a configuration *)
Definition want_ok (w : want) : Prop := match w with WNull => True | WText t => text t | WList l => Forall text l end.
Definition rpart_ok (p : rpart) : Prop :=
  match p with DOutput n => text n | DAttr a k => text a /\ short_text (match k with Some k => k | None => a end) /\ named (match k with Some k => k | None => a end) end.
Definition fpart_ok (p : fpart) : Prop := match p with DColumn n _ _ => text n | _ => True end.
Definition decl_ok (d : decl) : Prop :=
  match d with File n ps => text n /\ Forall fpart_ok ps | Rule _ k w ps => (short_text k /\ named k) /\ want_ok w /\ Forall rpart_ok ps end.
(** no rule without an output, no file with the empty name *)
Definition complete (ds : list decl) : Prop := forall t k w ps, In (Rule t k w ps) ds -> exists n, output ps = Some n /\ n <> [].
(** the names used as output are none of those every Javascript object has *)
Definition proper (inherited : jstr -> bool) (ds : list decl) : Prop :=
  forall t k w ps p, In (Rule t k w ps) ds -> In p ps -> match p with DOutput n => inherited (utf16 n) = false | DAttr a _ => inherited (utf16 a) = false end.
(** the shapes of the rows of a file *)
Definition shapes_of (shape : this -> outcome shp) (name : chars) (rs : list orow) : list shp :=
  flat_map (fun r => if list_eq_dec Z.eq_dec (or_file r) (utf16 name) then match shape (or_object r) with Ok p => [p] | _ => [] end else []) rs.
(** the names of the properties every Javascript object has *)
Definition prototype_names : list string :=
  ["constructor"; "toString"; "toLocaleString"; "valueOf"; "hasOwnProperty"; "isPrototypeOf"; "propertyIsEnumerable";
   "__defineGetter__"; "__defineSetter__"; "__lookupGetter__"; "__lookupSetter__"; "__proto__"]%string.
Definition js_inherited (u : jstr) : bool := existsb (fun n => ceq (ascii_text n) u) prototype_names.
