(** A writer and a parser of XML text, to stand for libxml2 and expat in examples: the writer
    without indentation, the parser for elements with attributes, the predefined and numeric
    character references the writer produces, and processing instructions.  Bytes above 127 are
    taken as they are. *)
From Verif Require Import Base.Prelude Model.Osm Model.Handler Model.Xml Spec.XmlSpec.

Definition chr (n : nat) : ascii := ascii_of_nat n.
Definition quote : ascii := chr 34.

(* ---- writer ---- *)
Definition escape_char (c : ascii) : string :=
  (if Ascii.eqb c "&" then "&amp;" else if Ascii.eqb c "<" then "&lt;" else if Ascii.eqb c ">" then "&gt;"
   else if Ascii.eqb c quote then "&quot;" else if Ascii.eqb c (chr 9) then "&#9;" else if Ascii.eqb c (chr 10) then "&#10;"
   else if Ascii.eqb c (chr 13) then "&#13;" else String c "")%string.
Fixpoint escape (s : string) : string := match s with EmptyString => ""%string | String c r => (escape_char c ++ escape r)%string end.
(** text so far, open elements, and whether the last start tag is still open *)
Record tw := mkTw { tw_out : string; tw_open : list string; tw_in_tag : bool }.
Definition tw_new : tw := mkTw "" [] false.
Definition attr_text (k v : string) : string := (" " ++ k ++ "=" ++ String quote (escape v ++ String quote ""))%string.
Definition tw_call (w : tw) (c : wcall) : tw * bool :=
  match c with
  | WSetup => (mkTw (tw_out w ++ "<?xml version='1.0'?>") (tw_open w) (tw_in_tag w), true)
  | WStart n => (mkTw (tw_out w ++ (if tw_in_tag w then ">" else "") ++ "<" ++ n) (n :: tw_open w) true, true)
  | WAttr k v => if tw_in_tag w then (mkTw (tw_out w ++ attr_text k v) (tw_open w) true, true) else (w, false)
  | WEnd =>
      match tw_open w with
      | [] => (w, false)
      | n :: r => (mkTw (tw_out w ++ (if tw_in_tag w then "/>" else "</" ++ n ++ ">")) r false, true)
      end
  end.
(** nothing is buffered *)
Definition tw_free (w : tw) : tw * bool := (w, true).

(* ---- parser ---- *)
Inductive mode :=
| MText                                           (* between tags *)
| MLt                                             (* after "<" *)
| MPi (q : bool)                                  (* in a processing instruction *)
| MName (n : string)                              (* in the name of a start tag *)
| MAttrs (n : string) (a : xattrs)                (* between attributes *)
| MAttrName (n : string) (a : xattrs) (k : string)
| MAttrEq (n : string) (a : xattrs) (k : string)  (* after "=" *)
| MValue (n : string) (a : xattrs) (k v : string)
| MRef (n : string) (a : xattrs) (k v e : string) (* after "&" *)
| MSlash (n : string) (a : xattrs)                (* after "/" in a start tag *)
| MEndName (n : string).                          (* after "</" *)
(** open elements, what is being read, and whether there was a root element *)
Record xp := mkXp { xp_stack : list string; xp_mode : mode; xp_seen : bool }.
Definition xp_new : xp := mkXp [] MText false.
Definition is_letter (c : ascii) : bool :=
  (65 <=? byte c) && (byte c <? 91) || (97 <=? byte c) && (byte c <? 123).
Definition snoc (s : string) (c : ascii) : string := (s ++ String c "")%string.
Definition reference (e : string) : option ascii :=
  if String.eqb e "amp" then Some "&"%char else if String.eqb e "lt" then Some "<"%char else if String.eqb e "gt" then Some ">"%char
  else if String.eqb e "quot" then Some quote else if String.eqb e "#9" then Some (chr 9) else if String.eqb e "#10" then Some (chr 10)
  else if String.eqb e "#13" then Some (chr 13) else None.
Definition go (p : xp) (m : mode) : option (xp * list event) := Some (mkXp (xp_stack p) m (xp_seen p), []).
(** a start tag is complete: a second root element is an error *)
Definition opened (p : xp) (n : string) (a : xattrs) (empty : bool) : option (xp * list event) :=
  match xp_stack p, xp_seen p with
  | [], true => None
  | _, _ => if empty then Some (mkXp (xp_stack p) MText true, [EvStart n a; EvEnd n])
            else Some (mkXp (n :: xp_stack p) MText true, [EvStart n a])
  end.
(** one byte; None is an error *)
Definition xp_step (p : xp) (c : ascii) : option (xp * list event) :=
  match xp_mode p with
  | MText =>
      if Ascii.eqb c "<" then go p MLt
      else match xp_stack p with [] => if (byte c =? 32) || (byte c =? 10) then go p MText else None | _ => go p MText end
  | MLt =>
      if Ascii.eqb c "/" then go p (MEndName "") else if Ascii.eqb c "?" then go p (MPi false)
      else if is_letter c then go p (MName (String c "")) else None
  | MPi q => if Ascii.eqb c "?" then go p (MPi true) else if Ascii.eqb c ">" && q then go p MText else go p (MPi false)
  | MName n =>
      if is_letter c then go p (MName (snoc n c)) else if Ascii.eqb c " " then go p (MAttrs n [])
      else if Ascii.eqb c ">" then opened p n [] false else if Ascii.eqb c "/" then go p (MSlash n []) else None
  | MAttrs n a =>
      if is_letter c then go p (MAttrName n a (String c "")) else if Ascii.eqb c " " then go p (MAttrs n a)
      else if Ascii.eqb c ">" then opened p n a false else if Ascii.eqb c "/" then go p (MSlash n a) else None
  | MAttrName n a k =>
      if is_letter c then go p (MAttrName n a (snoc k c))
      else if Ascii.eqb c "=" then match attr k a with Some _ => None | None => go p (MAttrEq n a k) end else None
  | MAttrEq n a k => if Ascii.eqb c quote then go p (MValue n a k "") else None
  | MValue n a k v =>
      if Ascii.eqb c quote then go p (MAttrs n (a ++ [(k, v)])) else if Ascii.eqb c "<" then None
      else if Ascii.eqb c "&" then go p (MRef n a k v "")
      else if (byte c =? 9) || (byte c =? 10) || (byte c =? 13) then go p (MValue n a k (snoc v " "))
      else if byte c <? 32 then None else go p (MValue n a k (snoc v c))
  | MRef n a k v e =>
      if Ascii.eqb c ";" then match reference e with Some x => go p (MValue n a k (snoc v x)) | None => None end
      else go p (MRef n a k v (snoc e c))
  | MSlash n a => if Ascii.eqb c ">" then opened p n a true else None
  | MEndName n =>
      if is_letter c then go p (MEndName (snoc n c))
      else if Ascii.eqb c ">" then
        match xp_stack p with
        | m :: r => if String.eqb m n then Some (mkXp r MText (xp_seen p), [EvEnd n]) else None
        | [] => None
        end
      else None
  end.
Fixpoint xp_run (p : xp) (s : string) : xp * list event * bool :=
  match s with
  | EmptyString => (p, [], true)
  | String c r =>
      match xp_step p c with
      | Some (p', es) => let '(p2, es', ok) := xp_run p' r in (p2, es ++ es', ok)
      | None => (p, [], false)
      end
  end.
Definition xp_complete (p : xp) : bool :=
  match xp_mode p, xp_stack p with MText, [] => xp_seen p | _, _ => false end.
Definition xp_parse (p : xp) (buf : string) (done : bool) : xp * list event * bool :=
  let '(p', es, ok) := xp_run p buf in (p', es, ok && (negb done || xp_complete p')).
