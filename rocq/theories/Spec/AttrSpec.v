(** Specification of the text setters: which attributes may change, and the form of an
    acceptable timestamp text. *)
From Verif Require Import Base.Prelude Model.Osm Spec.TimeSpec.

(** every attribute whose name is not [name] has the same value before and after *)
Definition unchanged_except (name : string) (a a' : attrs) : Prop :=
  (name <> "id" -> o_id a' = o_id a)%string /\
  (name <> "version" -> o_version a' = o_version a)%string /\
  (name <> "changeset" -> o_changeset a' = o_changeset a)%string /\
  (name <> "timestamp" -> o_timestamp a' = o_timestamp a)%string /\
  (name <> "uid" -> o_uid a' = o_uid a)%string /\
  (name <> "user" -> o_user a' = o_user a)%string /\
  (name <> "visible" -> o_visible a' = o_visible a)%string /\
  o_endtime a' = o_endtime a /\ o_tags a' = o_tags a.

(** blanks, then at least one and at most w digits with a value between lo and hi *)
Definition field (w : nat) (lo hi : Z) (s : string) : Prop :=
  exists sp ds n, s = (sp ++ ds)%string /\ all_blank sp /\ number ds n /\ (String.length ds <= w)%nat /\ lo <= n <= hi.
(** texts that have the form of a timestamp at their beginning *)
Definition time_form (s : string) : Prop :=
  exists y mo d h mi se rest,
    field 4 0 9999 y /\ field 2 1 12 mo /\ field 2 1 31 d /\ field 2 0 23 h /\ field 2 0 59 mi /\ field 2 0 61 se /\
    s = (y ++ "-" ++ mo ++ "-" ++ d ++ "T" ++ h ++ ":" ++ mi ++ ":" ++ se ++ "Z" ++ rest)%string.
