(** Specifications for tag filters and the hstore text format. *)
From Verif Require Import Base.Prelude Model.Osm.

(** [b] is the answer of the first of [rules] that matches, or the default if none does *)
Definition first_match {R} (rules : list R) (matches : R -> Prop) (answer : R -> bool) (dflt b : bool) : Prop :=
  (exists pre r post, rules = pre ++ r :: post /\ matches r /\ (forall q, In q pre -> ~ matches q) /\ b = answer r)
  \/ ((forall q, In q rules -> ~ matches q) /\ b = dflt).

(** PostgreSQL hstore input, quoted form: a backslash makes the next character literal, a
    quote ends the string, blanks are allowed outside of quotes.  A state machine over the text. *)
Inductive hs_state :=
| HStart                                  (* nothing read yet: a pair or the end *)
| HPair                                   (* after a comma: a pair must follow *)
| HKey (k : list ascii) | HKeyEsc (k : list ascii)
| HEq (k : list ascii) | HGt (k : list ascii) | HVal0 (k : list ascii)
| HVal (k v : list ascii) | HValEsc (k v : list ascii)
| HEnd.                                   (* after a pair: a comma or the end *)
Definition quote : ascii := "034".
Definition backslash : ascii := "092".
Definition blank (c : ascii) : bool := Ascii.eqb c " ".
(** key and value characters are collected in reverse *)
Fixpoint hs_parse (s : string) (st : hs_state) (done : list (list ascii * list ascii)) : option (list (list ascii * list ascii)) :=
  match s with
  | EmptyString => match st with HStart | HEnd => Some (rev done) | _ => None end
  | String c r =>
      match st with
      | HStart => if Ascii.eqb c quote then hs_parse r (HKey []) done else if blank c then hs_parse r st done else None
      | HPair => if Ascii.eqb c quote then hs_parse r (HKey []) done else if blank c then hs_parse r st done else None
      | HKey k => if Ascii.eqb c quote then hs_parse r (HEq k) done
                  else if Ascii.eqb c backslash then hs_parse r (HKeyEsc k) done else hs_parse r (HKey (c :: k)) done
      | HKeyEsc k => hs_parse r (HKey (c :: k)) done
      | HEq k => if Ascii.eqb c "=" then hs_parse r (HGt k) done else if blank c then hs_parse r st done else None
      | HGt k => if Ascii.eqb c ">" then hs_parse r (HVal0 k) done else None
      | HVal0 k => if Ascii.eqb c quote then hs_parse r (HVal k []) done else if blank c then hs_parse r st done else None
      | HVal k v => if Ascii.eqb c quote then hs_parse r HEnd ((k, v) :: done)
                    else if Ascii.eqb c backslash then hs_parse r (HValEsc k v) done else hs_parse r (HVal k (c :: v)) done
      | HValEsc k v => hs_parse r (HVal k (c :: v)) done
      | HEnd => if Ascii.eqb c "," then hs_parse r HPair done else if blank c then hs_parse r st done else None
      end
  end.
Definition text_of (rev_chars : list ascii) : string := string_of_list_ascii (rev rev_chars).
Definition hstore_parse (s : string) : option (list (string * string)) :=
  match hs_parse s HStart [] with
  | Some l => Some (map (fun kv => (text_of (fst kv), text_of (snd kv))) l)
  | None => None
  end.
(** texts without a NUL byte (all that fits a C string) *)
Fixpoint no_nul (s : string) : Prop :=
  match s with EmptyString => True | String c r => c <> zero /\ no_nul r end.
(** what comes before the first NUL *)
Fixpoint cut_nul (s : string) : string :=
  match s with EmptyString => EmptyString | String c r => if Ascii.eqb c zero then EmptyString else String c (cut_nul r) end.
Definition c_tag (t : tag) : Prop := no_nul (tkey t) /\ no_nul (tvalue t).
Definition pair_of (t : tag) : string * string := (tkey t, tvalue t).
