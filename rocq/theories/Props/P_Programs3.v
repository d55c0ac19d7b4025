(** C80: dumping a file. *)
From Verif Require Import Base.Prelude Model.Osm Model.OsmFile Model.Handler Model.Pbf Model.Xml Model.Convert Model.Programs
  Spec.OsmSpec Spec.HandlerSpec Spec.ConvertSpec Spec.TimeSpec Spec.DebugSpec Spec.ProgramsSpec
  Proofs.Debug2Proofs Proofs.Programs4Proofs Props.P_Programs2.
Local Open Scope Z_scope.
Local Open Scope string_scope.

(** The dump of a file shows all its objects in order, each run of objects of a type between a line
    before and a line after it, and ends with the final line. *)
Theorem C80_dump : forall m mv r, showable_meta m -> file_read r -> read_fully r -> fst r <> [] -> Forall showable (objects_of r) ->
  exists text rs, osmium_debug false m mv r = (text, None) /\ read_dump text = Some rs /\
    Forall2 (shows_call m mv) rs (protocol (fst r) ++ [CFinal]).
Proof. exact debug_shows. Qed.
Print Assumptions C80_dump.
(** With end times, each object is shown with the time of the next version of it as its end time. *)
Theorem C80_ends : forall m mv r, showable_meta m -> file_read r -> read_fully r -> fst r <> [] -> Forall showable (objects_of r) ->
  exists text rs, osmium_debug true m mv r = (text, None) /\ read_dump text = Some rs /\
    Forall2 (shows_call m true) rs (CInit :: flat_map (fun g => bracket (fst g, ends (snd g))) (join (fst r)) ++ [CFinal]).
Proof. exact debug_ends_shows. Qed.
Print Assumptions C80_ends.
(** Everything read before an error is shown, then the program fails with this error. *)
Theorem C80_failed : forall m mv r e, showable_meta m -> file_read r -> snd r = Throw e -> fst r <> [] -> Forall showable (objects_of r) ->
  exists text rs, osmium_debug false m mv r = (text, Some (HExn e)) /\ read_dump text = Some rs /\
    Forall2 (shows_call m mv) rs (protocol_open (fst r)).
Proof. exact debug_failed. Qed.
Print Assumptions C80_failed.
(** Files with the same dump have the same objects with the same end times. *)
Theorem C80_same : forall m m' mv mv' r r' text, showable_meta m -> showable_meta m' -> file_read r -> file_read r' -> read_fully r -> read_fully r' ->
  fst r <> [] -> fst r' <> [] -> Forall showable (objects_of r) -> Forall showable (objects_of r') ->
  osmium_debug true m mv r = (text, None) -> osmium_debug true m' mv' r' = (text, None) ->
  Forall2 (same_call true) (CInit :: flat_map (fun g => bracket (fst g, ends (snd g))) (join (fst r)) ++ [CFinal])
                           (CInit :: flat_map (fun g => bracket (fst g, ends (snd g))) (join (fst r')) ++ [CFinal]).
Proof. exact debug_ends_same. Qed.
Print Assumptions C80_same.

Definition ex_versions : list object := [xn 4 1 true 10 20; ONode (mkNode (mkAttrs 4 2 8 1100000000 0 5 "joe" false []) (mkPos 50 60))].
Example C80_example : showable_meta meta_new /\ file_read (ex_read FtHistory ex_versions) /\ read_fully (ex_read FtHistory ex_versions) /\
  objects_of (ex_read FtHistory ex_versions) = ex_versions /\ Forall showable ex_versions /\
  map (fun o => o_endtime (obj_attrs o)) (ends ex_versions) = [1100000000; 0] /\
  osmium_debug true meta_new true (ex_read FtHistory ex_versions) = ("meta:
  generator=
before_nodes
node:
  id=4
  version=1
  uid=5
  user=|joe|
  changeset=7
  timestamp=2001-09-09T01:46:40Z
  visible=yes
  endtime=2004-11-09T11:33:20Z
  tags: (count=0)
  lon=0.0000010
  lat=0.0000020
node:
  id=4
  version=2
  uid=5
  user=|joe|
  changeset=8
  timestamp=2004-11-09T11:33:20Z
  visible=no
  endtime=
  tags: (count=0)
  lon=0.0000050
  lat=0.0000060
after_nodes
final
", None).
Proof.
  split; [split; [intros []|vm_compute; intuition discriminate|vm_compute; intuition discriminate]|]. split; [apply ex_is_read|]. split; [vm_compute; reflexivity|]. split; [vm_compute; reflexivity|].
  split; [repeat constructor; cbn; try apply ex_text; try discriminate; unfold last_time; discriminate|]. split; [reflexivity|]. vm_compute. reflexivity.
Qed.
Example C80_failed_example : file_read ex_cut /\ snd ex_cut = Throw ERuntime /\ fst ex_cut <> [] /\ Forall showable (objects_of ex_cut) /\
  objects_of ex_cut = [xn 1 1 true 10 20; xn 3 1 true 30 40].
Proof.
  assert (E : objects_of ex_cut = [xn 1 1 true 10 20; xn 3 1 true 30 40]) by (vm_compute; reflexivity).
  split; [apply fr_xml|]. split; [vm_compute; reflexivity|]. split; [vm_compute; discriminate|]. rewrite E.
  split; [|reflexivity]. repeat constructor; cbn; try apply ex_text; try discriminate; unfold last_time; discriminate.
Qed.
(** Finding: with end times the object read last before the error is not shown. *)
Theorem C80_ends_failed_refuted : exists m r o text rs, file_read r /\ snd r = Throw ERuntime /\ In o (objects_of r) /\ Forall showable (objects_of r) /\
  osmium_debug true m false r = (text, Some (HExn ERuntime)) /\ read_dump text = Some rs /\
  Forall (fun i => ~ shows_call m true i (CObj o)) rs.
Proof.
  exists meta_new, ex_cut, (xn 3 1 true 30 40). eexists. eexists. destruct C80_failed_example as (A & B & _ & C & D).
  split; [exact A|]. split; [exact B|]. split; [rewrite D; right; now left|]. split; [exact C|].
  split; [vm_compute; reflexivity|]. split; [vm_compute; reflexivity|].
  assert (N1 : int_text "1" 1) by (left; split; [discriminate|reflexivity]).
  repeat apply Forall_cons; try apply Forall_nil; intros X; inversion X as [| | |? ? Y|]; inversion Y as [? ? ? ? Z| |]; destruct Z as [I _ _ _ _ _ _ _ _];
    cbn in I; pose proof (int_unique _ _ _ I N1) as W; discriminate W.
Qed.
Print Assumptions C80_ends_failed_refuted.
