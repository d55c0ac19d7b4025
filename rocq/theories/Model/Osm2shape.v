(** The framework for exports to shapefiles that comes with osmjs: /repo/osmjs/js/osm2shape.js, together
    with configuration scripts in the form of /repo/osmjs/js/config.js: statements that declare a
    shapefile or a rule and call methods on it in a chain.
    Javascript strings are lists of UTF-16 units.  Objects used as maps are lists of pairs in the order in
    which the properties were set; v8 enumerates names that are numbers before the others, which changes
    nothing here but the order in which files are opened.  Names [__proto__] and objects kept in variables
    are left out.  The calls of shapelib succeed, see Model/Shapefile.v for the others.  Messages printed
    are left out. *)
From Verif Require Import Base.Prelude Base.Decimal Model.Osm Model.Geom Model.Shapefile Model.Handler Model.Unicode Model.Js Model.Osmjs.
Local Open Scope Z_scope.

Definition jstr : Type := list Z.
Definition jeqb (a b : jstr) : bool := if list_eq_dec Z.eq_dec a b then true else false.
(** an ASCII literal *)
Definition lit (s : string) : jstr := units_of s.
(** reading and writing the own properties of an object *)
Fixpoint own {V} (k : jstr) (m : list (jstr * V)) : option V :=
  match m with [] => None | (k', v) :: r => if jeqb k' k then Some v else own k r end.
Fixpoint set_own {V} (k : jstr) (v : V) (m : list (jstr * V)) : list (jstr * V) :=
  match m with [] => [(k, v)] | (k', v') :: r => if jeqb k' k then (k, v) :: r else (k', v') :: set_own k v r end.

(** osm2shape.js 27-31: the keys of rules *)
Inductive rtype := RNode | RWay | RArea.
Definition rtype_eqb (a b : rtype) : bool :=
  match a, b with RNode, RNode | RWay, RWay | RArea, RArea => true | _, _ => false end.
(** the value given for a rule: null or undefined, a string, an array of strings *)
Inductive jvalue := VNull | VText (u : jstr) | VList (l : list jstr).

(** the methods of osm2shape.js 40-67 and 84-108, and the statements of a configuration *)
Inductive fcall := FType (type : jstr) | FColumn (name type : jstr) (size : option Z) | FFilename (name : jstr).
Inductive rcall := ROutput (name : jstr) | RAttr (attr : jstr) (key : option jstr).
Inductive stmt := SFile (name : jstr) (calls : list fcall) | SRule (t : rtype) (key : jstr) (value : jvalue) (calls : list rcall).

(** osm2shape.js 59: column *)
Record col := mkCol { co_name : jstr; co_type : jstr; co_size : Z }.
(** osm2shape.js 34-68: a shapefile before it is opened; column_names has the names of the columns *)
Record shpf := mkShpf { sh_fname : jstr; sh_gtype : jstr; sh_columns : list col }.
(** osm2shape.js 78-109: a rule; [ru_ready]: its match function was set (188) *)
Record rulej := mkRule { ru_key : jstr; ru_value : jvalue; ru_file : option jstr; ru_attrs : list (jstr * jstr); ru_ready : bool }.
(** A row of a shapefile: the name under which the file was declared, the object, the calls of
    add_attribute. *)
Record orow := mkRow { or_file : jstr; or_object : this; or_values : list dbf }.
(** files, rules (with their type, in the order of definition), the Shapefile objects, the rows *)
Record world := mkW { w_files : list (jstr * shpf); w_rules : list (rtype * rulej); w_open : list (jstr * sstate); w_rows : list orow }.
Definition world_new : world := mkW [] [] [] [].

(** how a function ends: it returns, it throws a Javascript exception, a C++ exception or undefined
    behaviour gets through v8 *)
Inductive jsres := JOk (w : world) | JExn (w : world) | JAbort.

Definition point : jstr := lit "point".
Definition star : jstr := lit "*".
Definition bar : Z := 124.
(** Javascript ==, between a value and a string: an array is turned into a string first; with two or more
    elements that has a comma in it *)
Definition is_star (v : jvalue) : bool :=
  match v with VNull => false | VText u => jeqb u star | VList l => match l with [u] => jeqb u star | _ => false end end.
(** String.split with one character *)
Fixpoint split (c : Z) (u : jstr) : list jstr :=
  match u with
  | [] => [[]]
  | x :: r => if x =? c then [] :: split c r else match split c r with [] => [[x]] | a :: l => (x :: a) :: l end
  end.
(** names that are array indexes, ECMA-262 15.4 *)
Definition number_of (u : jstr) : Z := fold_left (fun n c => 10 * n + (c - 48)) u 0.
Definition array_index (u : jstr) : bool := let n := number_of u in (0 <=? n) && (n <? 4294967295) && jeqb (lit (print_Z n)) u.
(** wrapper/osm.hpp 67-76: tags[key]; there is only a handler for names, v8 does not call it for indexes *)
Definition tags_get (ts : tag_list) (key : jstr) : outcome (option jstr) := if array_index key then Ok None else js_tag ts key.
Definition truthy (v : option jstr) : bool := match v with Some (_ :: _) => true | _ => false end.

Section Framework.
  (** the names under which every object has a property, from Object.prototype *)
  Variable inherited : jstr -> bool.
  (** Int32Value() of a string: the number it denotes *)
  Variable to_int32 : jstr -> Z.
  (** create_shp_object of the property geom of an object *)
  Variable shape : this -> outcome shp.

  (** 40-47: type.  There is no function exit in osmjs, the call throws an exception. *)
  Definition set_type (t : jstr) (s : shpf) : option shpf :=
    if jeqb t (lit "point") || jeqb t (lit "line") || jeqb t (lit "polygon") then Some (mkShpf (sh_fname s) t (sh_columns s)) else None.
  (** 48-63: column; a negative size is only reported *)
  Definition add_column (name type : jstr) (size : option Z) (s : shpf) : option shpf :=
    if jeqb type (lit "integer") || jeqb type (lit "string") || jeqb type (lit "bool") || jeqb type (lit "double") then
      Some (mkShpf (sh_fname s) (sh_gtype s) (sh_columns s ++ [mkCol name type (match size with Some n => n | None => 1 end)]))
    else None.
  Definition file_call (c : fcall) (s : shpf) : option shpf :=
    match c with
    | FType t => set_type t s
    | FColumn n t z => add_column n t z s
    | FFilename n => Some (mkShpf n (sh_gtype s) (sh_columns s))
    end.
  Fixpoint file_calls (cs : list fcall) (s : shpf) : option shpf :=
    match cs with [] => Some s | c :: r => match file_call c s with Some s' => file_calls r s' | None => None end end.
  (** 33-71: shapefile *)
  Definition shapefile_decl (name : jstr) (cs : list fcall) (w : world) : option world :=
    match file_calls cs (mkShpf name point []) with
    | Some s => Some (mkW (set_own name s (w_files w)) (w_rules w) (w_open w) (w_rows w))
    | None => None
    end.

  (** column_names[attr] *)
  Definition has_column (attr : jstr) (s : shpf) : bool := existsb (fun c => jeqb (co_name c) attr) (sh_columns s) || inherited attr.
  (** files[name] is something *)
  Definition has_name (name : jstr) (w : world) : bool := match own name (w_files w) with Some _ => true | None => inherited name end.
  (** 84-91: output; 92-108: attr; files[this.file].column_names is undefined if files[this.file] is none of
      the shapefiles, reading a property of it throws *)
  Definition rule_call (w : world) (c : rcall) (r : rulej) : option rulej :=
    match c with
    | ROutput n => if has_name n w then Some (mkRule (ru_key r) (ru_value r) (Some n) (ru_attrs r) (ru_ready r)) else None
    | RAttr a k =>
        match ru_file r with
        | None => None
        | Some f =>
            match own f (w_files w) with
            | None => None
            | Some s =>
                if has_column a s then
                  Some (mkRule (ru_key r) (ru_value r) (ru_file r) (set_own a (match k with Some k => k | None => a end) (ru_attrs r)) (ru_ready r))
                else None
            end
        end
    end.
  Fixpoint rule_calls (w : world) (cs : list rcall) (r : rulej) : option rulej :=
    match cs with [] => Some r | c :: l => match rule_call w c r with Some r' => rule_calls w l r' | None => None end end.
  (** 74-112: rule; 114-124: node, way, area *)
  Definition rule_decl (t : rtype) (key : jstr) (v : jvalue) (cs : list rcall) (w : world) : option world :=
    match rule_calls w cs (mkRule key (if is_star v then VNull else v) None [] false) with
    | Some r => Some (mkW (w_files w) (w_rules w ++ [(t, r)]) (w_open w) (w_rows w))
    | None => None
    end.
  Definition statement (s : stmt) (w : world) : option world :=
    match s with SFile n cs => shapefile_decl n cs w | SRule t k v cs => rule_decl t k v cs w end.
  (** A configuration script; None: it ends with an exception. *)
  Fixpoint configure (ss : list stmt) (w : world) : option world :=
    match ss with [] => Some w | s :: r => match statement s w with Some w' => configure r w' | None => None end end.

  (** 126-160: the function made by build_func, called with an object with these tags *)
  Definition matches (key : jstr) (v : jvalue) (ts : tag_list) : outcome bool :=
    let! x := tags_get ts key in
    let among l := truthy x && match x with Some u => existsb (jeqb u) l | None => false end in
    match v with
    | VNull => Ok (truthy x)
    | VText u =>
        if jeqb u star then Ok (truthy x)
        else if existsb (Z.eqb bar) u then Ok (among (split bar u))
        else Ok (truthy x && match x with Some y => jeqb y u | None => false end)
    | VList l => Ok (among l)
    end.

  (** 168: the type given to open; export_shapefile.hpp 46-54 *)
  Definition shptype_of (t : jstr) : outcome shptype :=
    if jeqb t (lit "point") then Ok SHPT_POINT
    else if jeqb t (lit "line") then Ok SHPT_ARC
    else if jeqb t (lit "polygon") then Ok SHPT_POLYGON
    else Throw ERuntime.
  Definition always (n : Z) : bool := true.
  (** 175-179: the fields; export_shapefile.hpp 139-156: add_field *)
  Fixpoint add_fields (cs : list col) (s : sstate) : outcome sstate :=
    match cs with
    | [] => Ok s
    | c :: r =>
        let (s', o) := add_field_name s (Unicode.c_string (utf8_value (co_name c))) (Unicode.c_string (utf8_value (co_type c))) (to_i32 (co_size c)) 0 true in
        let! _ := o in add_fields r s'
    end.
  Definition open_file (f : shpf) : outcome sstate :=
    let! t := shptype_of (sh_gtype f) in
    let! s := shapefile_new always t in
    add_fields (sh_columns f) s.
  Fixpoint open_files (fs : list (jstr * shpf)) : outcome (list (jstr * sstate)) :=
    match fs with
    | [] => Ok []
    | (n, f) :: r => let! s := open_file f in let! l := open_files r in Ok ((n, s) :: l)
    end.
  (** 187: rule.file && files[rule.file] *)
  Definition has_file (w : world) (r : rulej) : bool :=
    match ru_file r with Some (x :: l) => has_name (x :: l) w | _ => false end.
  (** 185-193: the rules of one type; the second result tells if all have a file *)
  Fixpoint set_matches (w : world) (t : rtype) (rs : list (rtype * rulej)) : list (rtype * rulej) * bool :=
    match rs with
    | [] => ([], true)
    | (t', r) :: l =>
        if rtype_eqb t' t then
          if has_file w r then
            let (l', ok) := set_matches w t l in ((t', mkRule (ru_key r) (ru_value r) (ru_file r) (ru_attrs r) true) :: l', ok)
          else ((t', r) :: l, false)
        else let (l', ok) := set_matches w t l in ((t', r) :: l', ok)
    end.
  (** 184-194: all types in the order of lines 28-30; exit (191) throws, see above *)
  Fixpoint set_all (w : world) (ts : list rtype) (rs : list (rtype * rulej)) : list (rtype * rulej) * bool :=
    match ts with
    | [] => (rs, true)
    | t :: l => let (rs', ok) := set_matches w t rs in if ok then set_all w l rs' else (rs', false)
    end.
  (** 162-195: init *)
  Definition o2s_init (w : world) : jsres :=
    match open_files (w_files w) with
    | Ok os =>
        let (rs, ok) := set_all w [RNode; RWay; RArea] (w_rules w) in
        let w' := mkW (w_files w) rs os (w_rows w) in
        if ok then JOk w' else JExn w'
    | _ => JAbort
    end.

  Definition attrs_of (o : this) : option attrs :=
    match o with OnFunction => None | OnObject o => Some (obj_attrs o) | OnArea a => Some a end.
  (** A value as add() sees it: a string, or undefined *)
  Definition attr_of (v : option jstr) : jsattr := match v with Some u => AVal u (to_int32 u) | None => ANull end.
  (** the id, a number; Javascript numbers up to 2^53 are written with all digits *)
  Definition id_attr (id : Z) : jsattr := AVal (lit (print_Z id)) (to_i32 id).
  (** 197-203: tags2attributes *)
  Fixpoint tags2attributes (ts : tag_list) (attrs : list (jstr * jstr)) (obj : list (jstr * jsattr)) : outcome (list (jstr * jsattr)) :=
    match attrs with
    | [] => Ok obj
    | (a, k) :: r => let! v := tags_get ts k in tags2attributes ts r (set_own a (attr_of v) obj)
    end.
  (** v8::String::New of the name of a field, which is UTF-8 *)
  Definition v8_New (s : string) : jstr := match utf8_decode (Unicode.c_string s) with Some t => flat_map u16_append t | None => units_of s end.
  (** 209-210: shp.add of the file of the rule; wrapper/export_shapefile.hpp 97-137, 158-174 *)
  Definition add_row (a : attrs) (o : this) (r : rulej) (w : world) : jsres :=
    match tags2attributes (o_tags a) (ru_attrs r) [(lit "id", id_attr (o_id a))] with
    | Ok obj =>
        match ru_file r with
        | None => JExn w
        | Some f =>
            match own f (w_open w) with
            | None => JExn w
            | Some s =>
                let (s', g) := match shape o with
                               | Ok p => add_geometry always s (Some p) true
                               | Throw e => (s, Throw e)
                               | UB => (s, UB)
                               | AssertFail => (s, AssertFail)
                               end in
                let (l, res) := js_add (ss_fields s) g (fun n => own (v8_New n) obj) in
                match res with
                | Ok _ =>
                    JOk (mkW (w_files w) (w_rules w) (set_own f s' (w_open w))
                           (w_rows w ++ match g with Ok _ => [mkRow f o l] | _ => [] end))
                | _ => JAbort
                end
            end
        end
    | _ => JAbort
    end.
  (** 205-213: check; a rule without match function: calling undefined throws *)
  Fixpoint check_rules (a : attrs) (o : this) (rs : list rulej) (w : world) : jsres :=
    match rs with
    | [] => JOk w
    | r :: l =>
        if ru_ready r then
          match matches (ru_key r) (ru_value r) (o_tags a) with
          | Ok true => match add_row a o r w with JOk w' => check_rules a o l w' | x => x end
          | Ok false => check_rules a o l w
          | _ => JAbort
          end
        else JExn w
    end.
  Definition rules_of (t : rtype) (w : world) : list rulej := map snd (filter (fun p => rtype_eqb (fst p) t) (w_rules w)).
  Definition check (t : rtype) (o : this) (w : world) : jsres :=
    match attrs_of o with Some a => check_rules a o (rules_of t w) w | None => JOk w end.
  (** 227-232: end *)
  Definition o2s_end (w : world) : jsres :=
    JOk (mkW (w_files w) (w_rules w) (map (fun p => (fst p, close (snd p))) (w_open w)) (w_rows w)).
  (** 162-232: the callbacks *)
  Definition o2s_call (c : callback) (w : world) : jsres :=
    match c with
    | CInit => o2s_init w
    | CObj (ONode n) => check RNode (OnObject (ONode n)) w
    | CObj (OWay x) => check RWay (OnObject (OWay x)) w
    | CArea a => check RArea (OnArea a) w
    | CFinal => o2s_end w
    | _ => JOk w
    end.
  (** handler.hpp 274-370: an exception in a callback changes nothing; None: the program does not go on *)
  Fixpoint o2s_run (cs : list callback) (w : world) : option world :=
    match cs with
    | [] => Some w
    | c :: r => match o2s_call c w with JOk w' | JExn w' => o2s_run r w' | JAbort => None end
    end.
  (** a run: the configuration, then the callbacks of a file; None: the script fails *)
  Definition osm2shape (ss : list stmt) (cs : list callback) : option (option world) :=
    match configure ss world_new with Some w => Some (o2s_run cs w) | None => None end.
End Framework.
