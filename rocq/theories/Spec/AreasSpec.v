(** Specification of the programs that assemble multipolygons: which areas there are, and how they are shown. *)
From Verif Require Import Base.Prelude Base.Decimal Model.Osm Model.Geom Model.Area Model.Handler Model.Debug Model.Ogr Model.Areas
  Spec.HandlerSpec Spec.AssemblerSpec Spec.ToshapeSpec Spec.MembersSpec.

(* ---- which areas ---- *)
(** a closed way that is in no multipolygon relation of the file *)
Definition area_way (os : list object) (o : object) : Prop :=
  exists w, o = OWay w /\ area_shaped w /\ ~ way_in (relations_of os) w.
Definition way_area (o : object) (a : attrs) : Prop :=
  match o with OWay w => a = area_attrs w | _ => False end.
(** a way of the file is the one a member means *)
Definition member_way (os : list object) (m : member) (w : way) : Prop :=
  m_type m = "w"%char /\ In (OWay w) os /\ o_id (w_attrs w) = m_ref m.
(** a multipolygon relation with ways, all of them in the file *)
Definition ready_relation (os : list object) (r : relation) : Prop :=
  is_multipolygon r /\ (exists m, In m (r_members r) /\ m_type m = "w"%char) /\
  forall m, In m (r_members r) -> m_type m = "w"%char -> exists w, member_way os m w.
(** what the builder gets for a member: its way; nothing for other members *)
Definition given_member (os : list object) (m : member) (f : option object) : Prop :=
  (exists w, f = Some (OWay w) /\ member_way os m w) \/ (f = None /\ m_type m <> "w"%char).

Section Areas.
  (** the multipolygon builder *)
  Variable build : relation -> list (option object) -> outcome (list attrs).
  (** the areas the builder makes of a relation *)
  Definition relation_areas (os : list object) (r : relation) (l : list attrs) : Prop :=
    exists ms, Forall2 (given_member os) (r_members r) ms /\ build r ms = Ok l.
  (** the areas of a file in some order: one for each closed way not in a multipolygon relation, and what the builder makes of the
      multipolygon relations that are ready, each used once *)
  Definition areas_of_file (os : list object) (l : list attrs) : Prop :=
    exists own built, exported (area_way os) way_area os own /\
      exported (ready_relation os) (relation_areas os) (relations_of os) built /\
      Permutation l (own ++ List.concat built).
End Areas.

(** areas with their numbers *)
Definition numbered (l : list attrs) : list (nat * attrs) := combine (seq 0 (List.length l)) l.

(* ---- mpdump ---- *)
(** an area of a way has an even id, twice that of the way; one of a relation an odd id, one further from zero *)
Definition comes_from (id : Z) (kind : string) (orig : Z) : Prop :=
  (kind = "way"%string /\ id = 2 * orig) \/ (kind = "relation"%string /\ id <> 0 /\ id = 2 * orig + Z.sgn id).
Local Open Scope string_scope.
Definition area_text (a : attrs) (wkt text : string) : Prop :=
  exists kind orig, comes_from (o_id a) kind orig /\
    text = text_of (("Area from " ++ kind ++ " id=" ++ print_Z (o_id a) ++ " (orig_id=" ++ print_Z orig ++ ") version=" ++ print_Z (o_version a)
                     ++ " timestamp=" ++ print_Z (o_timestamp a) ++ " uid=" ++ print_Z (o_uid a) ++ " user=" ++ c_text (o_user a))
                    :: ("  " ++ wkt) :: tag_lines "  " (o_tags a) ++ [""]).
(** the texts of the areas with these numbers *)
Definition area_texts (geom : nat -> attrs -> outcome string) (l : list attrs) (texts : list string) : Prop :=
  Forall2 (fun ka t => exists wkt, geom (fst ka) (snd ka) = Ok wkt /\ area_text (snd ka) wkt t) (numbered l) texts.
Definition together (l : list string) : string := fold_right append "" l.

(* ---- toogr2 ---- *)
Local Open Scope Z_scope.
Definition is_building (a : attrs) : Prop := exists v, tagged (o_tags a) "building" v.
(** a building with a geometry gets a row *)
Definition good_building (geom : nat -> attrs -> outcome ogr) (ka : nat * attrs) : Prop :=
  is_building (snd ka) /\ exists g, geom (fst ka) (snd ka) = Ok g.
(** its geometry and its id, of which only 32 bits are left *)
Definition building_row (geom : nat -> attrs -> outcome ogr) (ka : nat * attrs) (r : area_row) : Prop :=
  geom (fst ka) (snd ka) = Ok (ar_geom r) /\ -2147483648 <= ar_id r < 2147483648 /\ exists k, o_id (snd ka) = ar_id r + k * 4294967296.
(** a building that is left out: its geometry is illegal *)
Definition skipped_building (geom : nat -> attrs -> outcome ogr) (ka : nat * attrs) : Prop :=
  is_building (snd ka) /\ geom (fst ka) (snd ka) = Throw EIllegalGeometry.
(** how a program ends when this comes of something *)
Definition ends_with {A} (o : outcome A) (h : halt) : Prop :=
  match o with Ok _ => False | Throw e => h = HExn e | UB | AssertFail => h = HUB end.
