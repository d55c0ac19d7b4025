(** Attributes of objects set from text: osm/types.hpp, osm/object.hpp *)
From Verif Require Import Base.Prelude Base.Decimal Model.Osm Model.Time.

(** atoll(3) and atol(3) (both 64 bit): white space, optional sign, digits, the rest is
    ignored; 0 if there are no digits.  A value outside the result type is undefined
    behaviour (ISO C 7.22.1). *)
Definition atoll (s : string) : outcome Z :=
  let s := skip_space s in
  let v := match s with
           | String c r => if Ascii.eqb c "-" then - fst (scan_digits r 0)
                           else if Ascii.eqb c "+" then fst (scan_digits r 0)
                           else fst (scan_digits s 0)
           | EmptyString => 0
           end in
  if in_i64b v then Ok v else UB.
(** osm/types.hpp 56-70 *)
Definition string_to_osm_object_id_t (s : string) : outcome Z := atoll s.
Definition string_to_osm_version_t (s : string) : outcome Z := let! v := atoll s in Ok (to_u32 v).
Definition string_to_osm_changeset_id_t (s : string) : outcome Z := let! v := atoll s in Ok (to_i32 v).
Definition string_to_osm_user_id_t (s : string) : outcome Z := let! v := atoll s in Ok (to_i32 v).

(** osm/object.hpp 60-222: setters *)
Definition set_id (v : Z) (a : attrs) : attrs :=
  mkAttrs v (o_version a) (o_changeset a) (o_timestamp a) (o_endtime a) (o_uid a) (o_user a) (o_visible a) (o_tags a).
Definition set_version (v : Z) (a : attrs) : attrs :=
  mkAttrs (o_id a) v (o_changeset a) (o_timestamp a) (o_endtime a) (o_uid a) (o_user a) (o_visible a) (o_tags a).
Definition set_changeset (v : Z) (a : attrs) : attrs :=
  mkAttrs (o_id a) (o_version a) v (o_timestamp a) (o_endtime a) (o_uid a) (o_user a) (o_visible a) (o_tags a).
Definition set_timestamp (v : Z) (a : attrs) : attrs :=
  mkAttrs (o_id a) (o_version a) (o_changeset a) v (o_endtime a) (o_uid a) (o_user a) (o_visible a) (o_tags a).
Definition set_uid (v : Z) (a : attrs) : attrs :=
  mkAttrs (o_id a) (o_version a) (o_changeset a) (o_timestamp a) (o_endtime a) v (o_user a) (o_visible a) (o_tags a).
Definition set_user (v : string) (a : attrs) : attrs :=
  mkAttrs (o_id a) (o_version a) (o_changeset a) (o_timestamp a) (o_endtime a) (o_uid a) v (o_visible a) (o_tags a).
Definition set_visible (v : bool) (a : attrs) : attrs :=
  mkAttrs (o_id a) (o_version a) (o_changeset a) (o_timestamp a) (o_endtime a) (o_uid a) (o_user a) v (o_tags a).
Definition set_tags (v : tag_list) (a : attrs) : attrs :=
  mkAttrs (o_id a) (o_version a) (o_changeset a) (o_timestamp a) (o_endtime a) (o_uid a) (o_user a) (o_visible a) v.

(** osm/object.hpp 54 *)
Definition max_length_username : Z := 4 * 255 + 1.

(** Result of a member function that may throw: the object afterwards and the exception
    if there was one.  C++ modifies the object in place, so the state after a throw is
    part of the model. *)
Definition attr_result : Type := attrs * option exn.
(** object.hpp 169-172: timestamp(const char ptr) *)
Definition timestamp_text (s : string) (a : attrs) : outcome attr_result :=
  match parse_iso s with
  | Ok t => Ok (set_timestamp t a, None)
  | Throw e => Ok (a, Some e)
  | UB => UB
  | AssertFail => AssertFail
  end.
(** object.hpp 187-193: user(const char ptr) *)
Definition user_text (s : string) (a : attrs) : attr_result :=
  if slen s >? max_length_username then (a, Some ELength) else (set_user s a, None).
(** object.hpp 219-226: visible(const char ptr) *)
Definition visible_text (s : string) (a : attrs) : attrs :=
  if String.eqb s "false" then set_visible false a else set_visible true a.
(** object.hpp 235-251: set_attribute *)
Definition set_attribute (attr value : string) (a : attrs) : outcome attr_result :=
  if String.eqb attr "id" then let! v := string_to_osm_object_id_t value in Ok (set_id v a, None)
  else if String.eqb attr "version" then let! v := string_to_osm_version_t value in Ok (set_version v a, None)
  else if String.eqb attr "changeset" then let! v := string_to_osm_changeset_id_t value in Ok (set_changeset v a, None)
  else if String.eqb attr "timestamp" then timestamp_text value a
  else if String.eqb attr "uid" then let! v := string_to_osm_user_id_t value in Ok (set_uid v a, None)
  else if String.eqb attr "user" then Ok (user_text value a)
  else if String.eqb attr "visible" then Ok (visible_text value a, None)
  else Ok (a, None).
