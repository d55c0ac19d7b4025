(** Specification of the dump: a reader of its lines, and what the texts in them mean. *)
From Coq Require Import Reals.
From Verif Require Import Base.Prelude Model.Osm Model.Handler Model.Pbf Spec.TimeSpec Spec.FloatSpec Spec.DecimalSpec.
Local Open Scope Z_scope.
Local Open Scope string_scope.

(* ---- lines ---- *)
Definition newline : ascii := "010".
(** the lines of a text; what follows the last newline must be empty *)
Fixpoint lines_from (cur : string) (s : string) : option (list string) :=
  match s with
  | "" => if String.eqb cur "" then Some [] else None
  | String c r => if Ascii.eqb c newline
                  then match lines_from "" r with Some ls => Some (cur :: ls) | None => None end
                  else lines_from (cur ++ String c "") r
  end.
Definition lines : string -> option (list string) := lines_from "".

(** what follows a given text *)
Fixpoint after (p s : string) : option string :=
  match p, s with
  | "", _ => Some s
  | String a p', String b s' => if Ascii.eqb a b then after p' s' else None
  | _, _ => None
  end.
(** what comes before the first c, and from there on *)
Fixpoint split_at (c : ascii) (s : string) : string * string :=
  match s with
  | "" => ("", "")
  | String a r => if Ascii.eqb a c then ("", s) else let (x, y) := split_at c r in (String a x, y)
  end.
(** all but the last character, which must be c *)
Fixpoint without_last (c : ascii) (s : string) : option string :=
  match s with
  | "" => None
  | String a "" => if Ascii.eqb a c then Some "" else None
  | String a r => match without_last c r with Some x => Some (String a x) | None => None end
  end.

(* ---- the dump as texts ---- *)
Record raw_attrs := mkRA { ra_id : string; ra_version : string; ra_uid : string; ra_user : string; ra_changeset : string;
  ra_timestamp : string; ra_history : option (string * string) (* visible, endtime *);
  ra_count : string; ra_tags : list (string * string) }.
Inductive ditem :=
| RMeta (generator : string) (bounds : option string)
| RBefore (t : otype) | RAfter (t : otype) | RFinal
| RNode (a : raw_attrs) (lon lat : string)
| RWay (a : raw_attrs) (count : string) (refs : list string)
| RRelation (a : raw_attrs) (count : string) (members : list (string * string * string)).

(** a line that begins with p *)
Definition field (p : string) (ls : list string) : option (string * list string) :=
  match ls with l :: r => match after p l with Some x => Some (x, r) | None => None end | [] => None end.
(** a line that begins with p and ends with c *)
Definition closed_field (p : string) (c : ascii) (ls : list string) : option (string * list string) :=
  match field p ls with
  | Some (x, r) => match without_last c x with Some y => Some (y, r) | None => None end
  | None => None
  end.
Notation "'get' p <- x ; y" := (match x with Some p => y | None => None end)
  (at level 200, p pattern, x at level 100, y at level 200).

(** as many lines as f can read *)
Fixpoint many {A} (f : string -> option A) (ls : list string) : list A * list string :=
  match ls with
  | l :: r => match f l with Some x => let (xs, rest) := many f r in (x :: xs, rest) | None => ([], ls) end
  | [] => ([], [])
  end.
Definition read_tag (l : string) : option (string * string) :=
  get x <- after "    k=|" l;
  let (k, y) := split_at "|" x in
  get z <- after "| v=|" y;
  get v <- without_last "|" z;
  Some (k, v).
Definition read_ref (l : string) : option string := after "    ref=" l.
Definition read_member (l : string) : option (string * string * string) :=
  get x <- after "    type=" l;
  match x with
  | String c y =>
      get z <- after " ref=" y;
      let (n, u) := split_at " " z in
      get v <- after " role=|" u;
      get role <- without_last "|" v;
      Some (String c "", n, role)
  | "" => None
  end.
Definition read_attrs (ls : list string) : option (raw_attrs * list string) :=
  get (i, ls) <- field "  id=" ls;
  get (v, ls) <- field "  version=" ls;
  get (u, ls) <- field "  uid=" ls;
  get (us, ls) <- closed_field "  user=|" "|" ls;
  get (c, ls) <- field "  changeset=" ls;
  get (t, ls) <- field "  timestamp=" ls;
  get (h, ls) <- match field "  visible=" ls with
                 | Some (vi, ls) => get (e, ls) <- field "  endtime=" ls; Some (Some (vi, e), ls)
                 | None => Some (None, ls)
                 end;
  get (n, ls) <- closed_field "  tags: (count=" ")" ls;
  let (ts, ls) := many read_tag ls in
  Some (mkRA i v u us c t h n ts, ls).
Definition read_item (l : string) (ls : list string) : option (ditem * list string) :=
  if String.eqb l "meta:" then
    get (g, ls) <- field "  generator=" ls;
    match field "  bounds=" ls with
    | Some (b, ls) => Some (RMeta g (Some b), ls)
    | None => Some (RMeta g None, ls)
    end
  else if String.eqb l "node:" then
    get (a, ls) <- read_attrs ls;
    get (x, ls) <- field "  lon=" ls;
    get (y, ls) <- field "  lat=" ls;
    Some (RNode a x y, ls)
  else if String.eqb l "way:" then
    get (a, ls) <- read_attrs ls;
    get (n, ls) <- field "  node_count=" ls;
    get (_, ls) <- field "  nodes:" ls;
    let (rs, ls) := many read_ref ls in Some (RWay a n rs, ls)
  else if String.eqb l "relation:" then
    get (a, ls) <- read_attrs ls;
    get (n, ls) <- closed_field "  members: (count=" ")" ls;
    let (ms, ls) := many read_member ls in Some (RRelation a n ms, ls)
  else if String.eqb l "before_nodes" then Some (RBefore NODE, ls)
  else if String.eqb l "before_ways" then Some (RBefore WAY, ls)
  else if String.eqb l "before_relations" then Some (RBefore RELATION, ls)
  else if String.eqb l "after_nodes" then Some (RAfter NODE, ls)
  else if String.eqb l "after_ways" then Some (RAfter WAY, ls)
  else if String.eqb l "after_relations" then Some (RAfter RELATION, ls)
  else if String.eqb l "final" then Some (RFinal, ls)
  else None.
(** every item takes at least one line *)
Fixpoint read_items (fuel : nat) (ls : list string) : option (list ditem) :=
  match ls, fuel with
  | [], _ => Some []
  | l :: r, S n => get (x, rest) <- read_item l r; get xs <- read_items n rest; Some (x :: xs)
  | _, O => None
  end.
Definition read_dump (s : string) : option (list ditem) :=
  get ls <- lines s; read_items (List.length ls) ls.

(* ---- what the texts mean ---- *)
(** a whole number: digits, possibly with a sign before them *)
Definition int_text (s : string) (n : Z) : Prop :=
  number s n \/ exists d m, s = String "-" d /\ number d m /\ n = - m.
(** n / 10^7 with exactly seven digits after the point *)
Definition degrees_text (s : string) (n : Z) : Prop :=
  exists sg i f a b, s = sg ++ i ++ "." ++ f /\ number i a /\ number_w 7 f b /\
    (sg = "" /\ n = a * 10000000 + b \/ sg = "-" /\ n = - (a * 10000000 + b)).
Definition time_text (s : string) (t : Z) : Prop := iso_text t s \/ s = "" /\ t = 0.
Definition bool_text (s : string) (b : bool) : Prop := s = if b then "yes" else "no".

Record shows_attrs (hist : bool) (r : raw_attrs) (a : attrs) : Prop := {
  sa_id : int_text (ra_id r) (o_id a);
  sa_version : int_text (ra_version r) (o_version a);
  sa_uid : int_text (ra_uid r) (o_uid a);
  sa_user : ra_user r = o_user a;
  sa_changeset : int_text (ra_changeset r) (o_changeset a);
  sa_timestamp : time_text (ra_timestamp r) (o_timestamp a);
  sa_history : match ra_history r with
               | Some (v, e) => hist = true /\ bool_text v (o_visible a) /\ time_text e (o_endtime a)
               | None => hist = false
               end;
  sa_count : int_text (ra_count r) (Z.of_nat (List.length (o_tags a)));
  sa_tags : map (fun t => (tkey t, tvalue t)) (o_tags a) = ra_tags r }.
Definition shows_member (r : string * string * string) (m : member) : Prop :=
  let '(t, n, role) := r in t = String (m_type m) "" /\ int_text n (m_ref m) /\ role = m_role m.
Inductive shows_object (hist : bool) : ditem -> object -> Prop :=
| so_node a x y n : shows_attrs hist a (n_attrs n) -> degrees_text x (px (n_pos n)) -> degrees_text y (py (n_pos n)) ->
    shows_object hist (RNode a x y) (ONode n)
| so_way a k rs w : shows_attrs hist a (w_attrs w) -> int_text k (Z.of_nat (List.length (w_nodes w))) ->
    Forall2 int_text rs (map wn_ref (w_nodes w)) -> shows_object hist (RWay a k rs) (OWay w)
| so_relation a k ms r : shows_attrs hist a (r_attrs r) -> int_text k (Z.of_nat (List.length (r_members r))) ->
    Forall2 shows_member ms (r_members r) -> shows_object hist (RRelation a k ms) (ORel r).
(** four numbers that differ from the coordinates by at most a thousandth of a degree *)
Definition near_text (s : string) (n : Z) : Prop := exists r, decimal s r /\ (Rabs (r - IZR n * precision) <= / 1000)%R.
Definition bounds_text (s : string) (b : bounds) : Prop :=
  exists x1 y1 x2 y2, s = "(" ++ x1 ++ "," ++ y1 ++ "," ++ x2 ++ "," ++ y2 ++ ")" /\
    near_text x1 (px (bottom_left b)) /\ near_text y1 (py (bottom_left b)) /\
    near_text x2 (px (top_right b)) /\ near_text y2 (py (top_right b)).
Definition shows_bounds (t : option string) (b : bounds) : Prop :=
  match t with Some s => pos_defined (bottom_left b) = true /\ bounds_text s b | None => pos_defined (bottom_left b) = false end.
(** one line or block of the dump for each callback; hist: whether visible and endtime are shown *)
Inductive shows_call (m : meta) (hist : bool) : ditem -> callback -> Prop :=
| sc_init b : shows_bounds b (mt_bounds m) -> shows_call m hist (RMeta (mt_generator m) b) CInit
| sc_before t : shows_call m hist (RBefore t) (CBefore t)
| sc_after t : shows_call m hist (RAfter t) (CAfter t)
| sc_object r o : shows_object hist r o -> shows_call m hist r (CObj o)
| sc_final : shows_call m hist RFinal CFinal.

(* ---- which data can be shown ---- *)
Definition one_line (s : string) : Prop := ~ In newline (list_ascii_of_string s).
Definition no_nul (s : string) : Prop := ~ In zero (list_ascii_of_string s).
Definition showable_text (s : string) : Prop := one_line s /\ no_nul s.
Definition no_bar (s : string) : Prop := ~ In "|"%char (list_ascii_of_string s).
Definition showable_time (t : Z) : Prop := 0 <= t <= last_time.
Record showable_attrs (a : attrs) : Prop := {
  sh_user : showable_text (o_user a);
  sh_timestamp : showable_time (o_timestamp a);
  sh_endtime : showable_time (o_endtime a);
  sh_tags : Forall (fun t => showable_text (tkey t) /\ no_bar (tkey t) /\ showable_text (tvalue t)) (o_tags a) }.
Definition showable (o : object) : Prop :=
  showable_attrs (obj_attrs o) /\
  match o with
  | ONode n => in_i32 (px (n_pos n)) /\ in_i32 (py (n_pos n))
  | OWay _ => True
  | ORel r => Forall (fun m => m_type m <> newline /\ showable_text (m_role m)) (r_members r)
  end.
Record showable_meta (m : meta) : Prop := {
  sm_generator : one_line (mt_generator m);
  sm_bl : in_i32 (px (bottom_left (mt_bounds m))) /\ in_i32 (py (bottom_left (mt_bounds m)));
  sm_tr : in_i32 (px (top_right (mt_bounds m))) /\ in_i32 (py (top_right (mt_bounds m))) }.
(** the callbacks the dump has a line for *)
Definition showable_call (c : callback) : Prop :=
  match c with
  | CObj o => showable o
  | CBefore t | CAfter t => In t [NODE; WAY; RELATION]
  | CArea _ => False
  | CInit | CFinal => True
  end.

(** what two objects shown alike have in common *)
Definition same_attrs (hist : bool) (a b : attrs) : Prop :=
  o_id a = o_id b /\ o_version a = o_version b /\ o_uid a = o_uid b /\ o_user a = o_user b /\ o_changeset a = o_changeset b /\
  o_timestamp a = o_timestamp b /\ o_tags a = o_tags b /\
  (hist = true -> o_visible a = o_visible b /\ o_endtime a = o_endtime b).
Definition same_shown (hist : bool) (o p : object) : Prop :=
  match o, p with
  | ONode n, ONode m => same_attrs hist (n_attrs n) (n_attrs m) /\ n_pos n = n_pos m
  | OWay v, OWay w => same_attrs hist (w_attrs v) (w_attrs w) /\ map wn_ref (w_nodes v) = map wn_ref (w_nodes w)
  | ORel r, ORel s => same_attrs hist (r_attrs r) (r_attrs s) /\ r_members r = r_members s
  | _, _ => False
  end.
Inductive same_call (hist : bool) : callback -> callback -> Prop :=
| same_object o p : same_shown hist o p -> same_call hist (CObj o) (CObj p)
| same_other c : same_call hist c c.
