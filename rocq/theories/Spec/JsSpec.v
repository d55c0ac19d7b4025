(** Specification of what Javascript programs see and write. *)
From Verif Require Import Base.Prelude Model.Osm Model.Float Model.Geom Model.Shapefile Model.Js Spec.TimeSpec Spec.UnicodeSpec.
Local Open Scope Z_scope.

(** a Javascript string with these ASCII characters *)
Definition js_text (s : string) : jsval := JStr (map (fun c => Z.of_N (N_of_ascii c)) (list_ascii_of_string s)).
(** a list of coordinates as array of arrays *)
Definition pair_array (c : double * double) : jsval := JArr [JNum (fst c); JNum (snd c)].
Definition coords_array (cs : list (double * double)) : jsval := JArr (map pair_array cs).
Definition lonlat (p : position) : double * double := (pos_lon p, pos_lat p).
Definition polygon_rings := (list (double * double) * list (list (double * double)))%type.
Definition polygon_of (r : polygon_rings) : geos := GPolygon (fst r) (snd r).
(** a polygon as array of its rings, the outer one first *)
Definition rings_array (r : polygon_rings) : jsval := JArr (map coords_array (fst r :: snd r)).
(** the last node of a list has a position *)
Definition last_known (ns : list way_node) : Prop := exists l n, ns = l ++ [n] /\ pos_defined (wn_pos n) = true.
Definition same_ends (ns : list way_node) : Prop :=
  exists n l m, (ns = n :: l ++ [m] /\ wn_ref n = wn_ref m) \/ (ns = [n]).

(** [p] is the longest part from the start of [t] of at most [w] bytes *)
Definition longest_part (w : Z) (t p : list Z) : Prop :=
  exists r, t = p ++ r /\ slen (utf8 p) <= w /\ match r with [] => True | c :: _ => slen (utf8 (p ++ [c])) > w end.
(** the n-th unit of the UTF-16 form is the first of two for one character *)
Definition splits (n : Z) (t : list Z) : Prop :=
  exists a c b, t = a ++ c :: b /\ 65536 <= c /\ Z.of_nat (List.length (utf16 a)) + 1 = n.
(** logical values: t, T, y, Y and f, F, n, N *)
Definition yes_chars : list Z := [116; 84; 121; 89].
Definition no_chars : list Z := [102; 70; 110; 78].
(** ASCII text as characters *)
Definition ascii_text (s : string) : list Z := map (fun c => Z.of_N (N_of_ascii c)) (list_ascii_of_string s).
Definition says (t : list Z) (b : option bool) : Prop :=
  (exists c r, t = c :: r /\ In c yes_chars /\ b = Some true) \/
  (exists c r, t = c :: r /\ In c no_chars /\ b = Some false) \/
  (exists s n, t = ascii_text s /\ number s n /\ n <= int32_max /\
     b = if n =? 1 then Some true else if String.eqb s "0" then Some false else None) \/
  (exists s n, t = 45 :: ascii_text s /\ number s n /\ - int32_min >= n /\ b = None).
(** what is written for the value of a field *)
Inductive written (f : field) (n : Z) : jsattr -> dbf -> Prop :=
| wr_null : written f n ANull (DNull n)
| wr_int u i : f_type f = FTInteger -> written f n (AVal u i) (DInt n i)
| wr_text t i p : f_type f = FTString -> plain t -> longest_part (f_width f) t p -> written f n (AVal (utf16 t) i) (DString n (utf8 p))
| wr_bool t i b : f_type f = FTLogical -> plain t -> says t (Some b) -> written f n (AVal (utf16 t) i) (DBool n b)
| wr_unknown t i : f_type f = FTLogical -> plain t -> says t None -> written f n (AVal (utf16 t) i) (DNull n).
(** values that can be written *)
Definition usable (f : field) (v : jsattr) : Prop :=
  match v with
  | ANull => True
  | AVal u i =>
      match f_type f with
      | FTInteger => True
      | FTString => 0 <= f_width f <= 255 /\ exists t, u = utf16 t /\ plain t /\ ~ splits 256 t
      | FTLogical => exists t b, u = utf16 t /\ plain t /\ says t b
      | FTDouble => False
      end
  end.
Definition dbf_field (d : dbf) : Z := match d with DNull n | DString n _ | DInt n _ | DBool n _ => n end.
Fixpoint count_from (i : Z) (n : nat) : list Z := match n with O => [] | S k => i :: count_from (i + 1) k end.
(** the value the attributes have for a field *)
Definition value_of (attributes : string -> option jsattr) (f : field) : jsattr :=
  match attributes (f_name f) with Some v => v | None => ANull end.

(** splitting at a character *)
Fixpoint split_at (c : ascii) (s : string) : list string :=
  match s with
  | EmptyString => [EmptyString]
  | String d r =>
      if Ascii.eqb d c then EmptyString :: split_at c r
      else match split_at c r with [] => [String d EmptyString] | x :: l => String d x :: l end
  end.
(** a table: lines ended by newline, fields separated by tabs *)
Definition read_table (s : string) : list (list string) := map (split_at "009") (removelast (split_at "010" s)).
Definition table_text (t : list Z) : Prop :=
  plain t /\ ~ In 9 t /\ ~ In 10 t /\ 4 * (Z.of_nat (List.length (utf16 t)) + 1) <= int32_max.
