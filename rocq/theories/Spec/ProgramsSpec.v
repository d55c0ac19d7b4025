(** Specification of the small example programs. *)
From Verif Require Import Base.Prelude Base.Decimal Model.Osm Model.OsmFile Model.Handler Model.Convert Spec.HandlerSpec Spec.ConvertSpec.

(* ---- extracts from histories ---- *)
(** a version, with its end, that is not over before [from] and begins by [to] *)
Definition lives_between (from to : Z) (o : object) : bool :=
  (obj_timestamp o <=? to) && ((obj_endtime o =? 0) || (from <=? obj_endtime o)).
(** the versions of a file that live between two moments; each ends when the version that follows in
    the file begins *)
Definition selected (from to : Z) (r : reading) : list object :=
  flat_map (fun g => filter (lives_between from to) (ends (snd g))) (join (fst r)).

(** those of a list that have a property, in the same order *)
Inductive picked {A} (P : A -> Prop) : list A -> list A -> Prop :=
| picked_nil : picked P [] []
| picked_take x l l' : P x -> picked P l l' -> picked P (x :: l) (x :: l')
| picked_skip x l l' : ~ P x -> picked P l l' -> picked P (x :: l) l'.
Definition next_version (os : list object) (o n : object) : Prop :=
  In n os /\ obj_id n = obj_id o /\ obj_version o < obj_version n /\
  forall x, In x os -> obj_id x = obj_id o -> ~ obj_version o < obj_version x < obj_version n.
(** the version was current at the moment t, or up to it *)
Definition valid_at (os : list object) (t : Z) (o : object) : Prop :=
  let same := ofilter (obj_type o) os in
  current_at same t o \/ (obj_timestamp o <= t /\ exists n, next_version same o n /\ obj_timestamp n = t).
(** a history file: the objects of each type are together, sorted by id and version, the versions of
    an object follow each other in time, and no end is known yet *)
Record history_file (r : reading) : Prop := {
  hf_runs : NoDup (map fst (join (fst r)));
  hf_sorted : forall t, history (ofilter t (objects_of r));
  hf_time : forall t, chronological (ofilter t (objects_of r));
  hf_open : forall o, In o (objects_of r) -> obj_endtime o = 0 }.

(* ---- a change file applied to a file ---- *)
(** one run of the file with the objects of its type from the change file put in their places; of
    objects with the same id and version in the change file only the first *)
Definition applied (change : list object) (run out : otype * list object) : Prop :=
  fst out = fst run /\ exists x, firsts_sorted (ofilter (fst run) change) x /\
    Permutation (snd out) (x ++ snd run) /\ key_sorted (snd out).
(** a run of a sorted file, whose ids fit to those of the change file *)
Definition run_fits (change : list object) (run : otype * list object) : Prop :=
  keys_ok (ofilter (fst run) change ++ snd run) /\ key_sorted (snd run).

(* ---- counting ---- *)
Definition count_of (t : otype) (os : list object) : Z := Z.of_nat (List.length (ofilter t os)).
