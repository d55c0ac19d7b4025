(** C09: attributes set from text.  C12: timestamps. *)
From Verif Require Import Base.Prelude Base.Decimal Model.Osm Model.Time Model.Attr Spec.TimeSpec Spec.AttrSpec Proofs.TimeProofs Proofs.AttrProofs.

(* ---- C09 ---- *)
Theorem C09_id_text : forall s n a, denotes s n -> in_i64 n ->
  exists a', set_attribute "id" s a = Ok (a', None) /\ o_id a' = n.
Proof. exact id_text. Qed.
Theorem C09_version_text : forall s n a, denotes s n -> in_u32 n ->
  exists a', set_attribute "version" s a = Ok (a', None) /\ o_version a' = n.
Proof. exact version_text. Qed.
Theorem C09_changeset_text : forall s n a, denotes s n -> in_i32 n ->
  exists a', set_attribute "changeset" s a = Ok (a', None) /\ o_changeset a' = n.
Proof. exact changeset_text. Qed.
Theorem C09_uid_text : forall s n a, denotes s n -> in_i32 n ->
  exists a', set_attribute "uid" s a = Ok (a', None) /\ o_uid a' = n.
Proof. exact uid_text. Qed.
Theorem C09_timestamp_text : forall s t a, iso_text t s ->
  exists a', set_attribute "timestamp" s a = Ok (a', None) /\ o_timestamp a' = t.
Proof. exact timestamp_text_ok. Qed.
(** exactly the texts that do not start with the form of a timestamp are rejected *)
Theorem C09_timestamp_rejected : forall s a, ~ time_form s <-> set_attribute "timestamp" s a = Ok (a, Some EInvalidArgument).
Proof. exact timestamp_rejects. Qed.
Theorem C09_user_text : forall s a,
  (slen s <= 1021 -> exists a', set_attribute "user" s a = Ok (a', None) /\ o_user a' = s) /\
  (slen s > 1021 -> set_attribute "user" s a = Ok (a, Some ELength)).
Proof. exact user_text_spec. Qed.
Theorem C09_visible_text : forall s a, exists a', set_attribute "visible" s a = Ok (a', None) /\ (o_visible a' = false <-> s = "false"%string).
Proof. exact visible_text_spec. Qed.
(** no other attribute changes, and none at all when an exception is thrown *)
Theorem C09_frame : forall attr value a a' e, set_attribute attr value a = Ok (a', e) ->
  unchanged_except attr a a' /\ (e <> None -> a' = a).
Proof. exact set_attribute_frame. Qed.
(** text after the timestamp is accepted although the whole is no timestamp *)
Theorem C09_timestamp_strict_refuted : exists s t, (forall t', ~ iso_text t' s) /\ parse_iso s = Ok t.
Proof. exact junk_after_timestamp. Qed.
(** the documented limit of 255 characters is not enforced: the check counts bytes *)
Theorem C09_user_255_characters_refuted : exists s, slen s = 256 /\ set_attribute "user" s attrs_new = Ok (set_user s attrs_new, None).
Proof. exact user_256_characters. Qed.
(** a number outside the type of the attribute is undefined behaviour, not an exception *)
Theorem C09_overflow_rejected_refuted : exists s n, denotes s n /\ set_attribute "id" s attrs_new = UB.
Proof. exact number_overflow. Qed.

Example C09_ex_number : denotes " -17abc" (-17).
Proof.
  apply (den_minus " " "17" "abc" 17).
  - split; [left; reflexivity|exact I].
  - split; [discriminate|reflexivity].
  - reflexivity.
Qed.
Example C09_ex_reject : set_attribute "timestamp" "2011-13-01T00:00:00Z" attrs_new = Ok (attrs_new, Some EInvalidArgument).
Proof. vm_compute. reflexivity. Qed.
Example C09_ex_iso : iso_text 1 "1970-01-01T00:00:01Z".
Proof. destruct (to_iso_spec 1 ltac:(unfold last_time; lia)) as (s & E & T). vm_compute in E. injection E as <-. exact T. Qed.
Print Assumptions C09_id_text.
Print Assumptions C09_version_text.
Print Assumptions C09_changeset_text.
Print Assumptions C09_uid_text.
Print Assumptions C09_timestamp_text.
Print Assumptions C09_timestamp_rejected.
Print Assumptions C09_user_text.
Print Assumptions C09_visible_text.
Print Assumptions C09_frame.
Print Assumptions C09_timestamp_strict_refuted.
Print Assumptions C09_user_255_characters_refuted.
Print Assumptions C09_overflow_rejected_refuted.

(* ---- C12 ---- *)
(** to_iso gives the text of the Gregorian date and time *)
Theorem C12_to_iso_date : forall t, 1 <= t <= last_time -> exists s, to_iso t = Ok s /\ iso_text t s.
Proof. exact to_iso_spec. Qed.
(** parse_iso reads every such text *)
Theorem C12_parse_iso : forall t s, iso_text t s -> parse_iso s = Ok t.
Proof. exact parse_iso_text. Qed.
Theorem C12_round_trip : forall t, 1 <= t <= last_time -> exists s, to_iso t = Ok s /\ parse_iso s = Ok t.
Proof. exact iso_round_trip. Qed.
Theorem C12_order : forall t t' s s', 1 <= t <= last_time -> 1 <= t' <= last_time -> to_iso t = Ok s -> to_iso t' = Ok s' ->
  String.compare s s' = (t ?= t').
Proof. exact iso_order. Qed.
Theorem C12_zero : to_iso 0 = Ok ""%string.
Proof. exact (eq_refl _). Qed.
(** the range cannot be extended: the next second gives an empty text *)
Theorem C12_year_10000_refuted : exists t, last_time < t /\ to_iso t = Ok ""%string.
Proof. exact (ex_intro _ (last_time + 1) (conj (Z.lt_succ_diag_r _) (eq_refl _))). Qed.
Example C12_ex_leap : to_iso 951782400 = Ok "2000-02-29T00:00:00Z"%string /\ parse_iso "2000-02-29T00:00:00Z" = Ok 951782400.
Proof. vm_compute. auto. Qed.
Example C12_ex_last : to_iso last_time = Ok "9999-12-31T23:59:59Z"%string.
Proof. vm_compute. auto. Qed.
Print Assumptions C12_to_iso_date.
Print Assumptions C12_parse_iso.
Print Assumptions C12_round_trip.
Print Assumptions C12_order.
Print Assumptions C12_zero.
Print Assumptions C12_year_10000_refuted.
