(** Specification of conversions between file formats. *)
From Verif Require Import Base.Prelude Model.Osm Model.OsmFile Model.Handler Model.Convert Spec.HandlerSpec.
From Verif Require Model.Pbf Model.Xml.

(** the objects of a file in the order of the file *)
Definition objects_of (r : reading) : list object := flat_map snd (fst r).
(** a file that was read to its end *)
Definition read_fully (r : reading) : Prop := snd r = Ok tt.
(** the readings of files of one of the two formats *)
Inductive file_read : reading -> Prop :=
| fr_pbf K ty f : file_read (pbf_reading (Pbf.read_pbf K ty f))
| fr_xml E (expat : E -> string -> bool -> E * list Xml.event * bool) e bufs :
    file_read (xml_reading (Xml.read_xml expat e bufs)).

(** objects without anything that one of the formats cannot hold: no end time, a user only together
    with a positive user id, deleted only if the file has deleted objects, no positions in ways, a
    position with both coordinates or none, and members that are nodes, ways or relations *)
Definition plain_attrs (ft : ftype) (a : attrs) : Prop :=
  o_endtime a = 0 /\ (0 < o_uid a \/ (o_uid a = -1 /\ o_user a = ""%string)) /\
  (ft = FtOSM -> o_visible a = true).
Definition plain (ft : ftype) (o : object) : Prop :=
  plain_attrs ft (obj_attrs o) /\
  match o with
  | ONode n => pos_defined (n_pos n) = true \/ n_pos n = undef_pos
  | OWay w => Forall (fun n => wn_pos n = undef_pos) (w_nodes w)
  | ORel r => Forall (fun m => m_type m = "n"%char \/ m_type m = "w"%char \/ m_type m = "r"%char) (r_members r)
  end.
