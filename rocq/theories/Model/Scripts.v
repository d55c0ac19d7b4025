(** Scripts that come with osmjs: /repo/osmjs/js/count.js and /repo/osmjs/js/osm2csv.js.
    What they print on standard output is left out.  Objects that have a key twice and keys that are array
    indexes are left out: what a loop over the keys does then depends on the version of v8. *)
From Verif Require Import Base.Prelude Base.Decimal Model.Osm Model.Handler Model.Unicode Model.Js Model.Osmjs Model.Osm2shape.
Local Open Scope Z_scope.

(** a number in a counter; adding one to a function gives NaN *)
Inductive cnum := CNum (n : Z) | CNaN.
(** Javascript numbers are doubles: 2^53 + 1 is 2^53 *)
Definition max_exact : Z := 9007199254740992.
Definition cincr (c : cnum) : cnum := match c with CNum n => CNum (if n <? max_exact then n + 1 else n) | CNaN => CNaN end.
Definition ctrue (c : cnum) : bool := match c with CNum n => negb (n =? 0) | CNaN => false end.
(** ToString() *)
Definition cnum_text (c : cnum) : jstr := match c with CNum n => lit (print_Z n) | CNaN => lit "NaN" end.
Definition undefined_text : jstr := lit "undefined".
Definition text_or_undefined (v : option jstr) : jstr := match v with Some u => u | None => undefined_text end.
Definition counter := list (jstr * cnum).

Section Scripts.
  (** the names under which every object has a property, from Object.prototype: functions *)
  Variable inherited : jstr -> bool.

  (** count.js 21-25 and 29-33 *)
  Definition count_one (k : jstr) (m : counter) : counter :=
    match own k m with
    | Some c => if ctrue c then set_own k (cincr c) m else set_own k (CNum 1) m
    | None => if inherited k then set_own k CNaN m else set_own k (CNum 1) m
    end.
  (** count.js 19-35: the loop *)
  Fixpoint count_loop (ts : tag_list) (ks : list jstr) (st : counter * counter) : outcome (counter * counter) :=
    match ks with
    | [] => Ok st
    | k :: r =>
        let! v := tags_get ts k in
        count_loop ts r (count_one k (fst st), count_one (k ++ [9] ++ text_or_undefined v) (snd st))
    end.
  (** count.js 18-36: node *)
  Definition count_node (ts : tag_list) (st : counter * counter) : outcome (counter * counter) :=
    let! ks := js_keys ts in count_loop ts ks st.
  Fixpoint count_calls (cs : list callback) (st : counter * counter) : outcome (counter * counter) :=
    match cs with
    | [] => Ok st
    | CObj (ONode n) :: r => let! st' := count_node (o_tags (n_attrs n)) st in count_calls r st'
    | _ :: r => count_calls r st
    end.
  (** count.js 38-52: end: the texts of both files *)
  Definition counter_rows (m : counter) : list (list jstr) := map (fun p => [fst p; cnum_text (snd p)]) m.
  Definition count_js (cs : list callback) : outcome (string * string) :=
    let! st := count_calls cs ([], []) in
    let! a := csv_file (counter_rows (fst st)) in
    let! b := csv_file (counter_rows (snd st)) in
    Ok (a, b).
End Scripts.

(** osm2csv.js 13-15: node; ids up to 2^53 are written with all digits *)
Definition osm2csv_row (a : attrs) : outcome (list jstr) :=
  let! name := tags_get (o_tags a) (lit "name") in
  let! note := tags_get (o_tags a) (lit "note") in
  Ok [lit (print_Z (o_id a)); text_or_undefined name; text_or_undefined note].
(** osm2csv.js: the text of the file *)
Fixpoint osm2csv_js (cs : list callback) : outcome string :=
  match cs with
  | [] => Ok EmptyString
  | CObj (ONode n) :: r =>
      let! row := osm2csv_row (n_attrs n) in let! l := csv_print row in let! rest := osm2csv_js r in Ok (l ++ rest)%string
  | _ :: r => osm2csv_js r
  end.
