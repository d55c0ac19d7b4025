(** C74: the programs that assemble multipolygons.  Statements only, the proofs are in Proofs. *)
From Verif Require Import Base.Prelude Base.Decimal Model.Osm Model.Geom Model.Area Model.Store Model.Handler Model.Assembler Model.Convert Model.Debug Model.Ogr Model.Areas
  Spec.OsmSpec Spec.HandlerSpec Spec.AssemblerSpec Spec.ToshapeSpec Spec.MembersSpec Spec.AreasSpec
  Proofs.Handler2Proofs Proofs.Areas2Proofs Props.P_Assembler.
Local Open Scope Z_scope.

(* ---- C74 ---- *)
(** mpdump: the areas of the file are shown, each once and in full: those of closed ways in no multipolygon relation, and what the
    builder makes of each multipolygon relation that has all its ways; unless the geometry of one cannot be made: then the program ends
    there, and those before it are shown. *)
Theorem C74_mpdump : forall P N (pset : Z -> position -> P -> outcome P) pget (nset : Z -> position -> N -> outcome N) nget build srt
    p0 n0 dflt (domp domn : Z -> Prop) geom,
  store_works pset pget p0 dflt domp -> store_works nset nget n0 dflt domn -> sorts srt ->
  (forall r ms, exists l, build r ms = Ok l) -> (forall k a, geom k a <> Throw EStopReading) -> forall gs, in_order gs ->
  (forall w, In (OWay w) (flat_map snd gs) -> way_ok w) -> (forall o id, In o (flat_map snd gs) -> In id (used_ids o) -> id_ok domp domn id) ->
  exists l1 l2 texts h, areas_of_file build (located_stream [] (flat_map snd gs) dflt) (l1 ++ l2) /\ area_texts geom l1 texts /\
    mpdump pset pget nset nget build srt geom p0 n0 (gs, Ok tt) = (together texts, h) /\
    match h with
    | None => l2 = []
    | Some x => exists a l3, l2 = a :: l3 /\ ends_with (geom (List.length l1) a) x
    end.
Proof. exact @mpdump_program. Qed.
Print Assumptions C74_mpdump.
(** toogr2: of these areas, those that are buildings and have a geometry become features; buildings with an illegal geometry are left
    out; unless another exception comes from the geometry, or OGR fails: then the program ends at this area. *)
Theorem C74_toogr2 : forall P N (pset : Z -> position -> P -> outcome P) pget (nset : Z -> position -> N -> outcome N) nget build srt
    p0 n0 dflt (domp domn : Z -> Prop) geom lib,
  store_works pset pget p0 dflt domp -> store_works nset nget n0 dflt domn -> sorts srt ->
  (forall r ms, exists l, build r ms = Ok l) -> (forall k a, geom k a <> Throw EStopReading) -> forall gs, in_order gs ->
  (forall w, In (OWay w) (flat_map snd gs) -> way_ok w) -> (forall o id, In o (flat_map snd gs) -> In id (used_ids o) -> id_ok domp domn id) ->
  exists l1 l2 rows h, areas_of_file build (located_stream [] (flat_map snd gs) dflt) (l1 ++ l2) /\
    exported (good_building geom) (building_row geom) (numbered l1) rows /\
    Forall (fun ka => is_building (snd ka) -> good_building geom ka \/ skipped_building geom ka) (numbered l1) /\
    (forall i, (i < List.length rows)%nat -> lib i = true) /\
    toogr2 pset pget nset nget build srt geom lib p0 n0 (gs, Ok tt) = (rows, h) /\
    match h with
    | None => l2 = []
    | Some x => exists a l3, l2 = a :: l3 /\ is_building a /\
        ((geom (List.length l1) a <> Throw EIllegalGeometry /\ ends_with (geom (List.length l1) a) x) \/
         ((exists g, geom (List.length l1) a = Ok g) /\ lib (List.length rows) = false /\ x = HExn EExit))
    end.
Proof. exact @toogr2_program. Qed.
Print Assumptions C74_toogr2.

(* ---- examples ---- *)
Definition a_attrs (id : Z) (ts : tag_list) : attrs := mkAttrs id 1 7 1000000000 0 5 "joe" true ts.
Definition a_node (id x y : Z) : object := ONode (mkNode (a_attrs id []) (mkPos x y)).
Definition a_way (id : Z) (refs : list Z) (ts : tag_list) : object := OWay (mkWay (a_attrs id ts) (map (fun r => mkWN r undef_pos) refs)).
Definition a_rel (id : Z) (ways : list Z) : object :=
  ORel (mkRelation (a_attrs id [mkTag "type" "multipolygon"; mkTag "building" "yes"]) (map (fun i => mkMember "w" i "outer") ways)).
Definition a_build (r : relation) (_ : list (option object)) : outcome (list attrs) :=
  Ok [with_id (r_attrs r) (2 * o_id (r_attrs r) + Z.sgn (o_id (r_attrs r)))].
Definition afile (ws rs : list object) : list (otype * list object) :=
  [(NODE, [a_node 1 10 20; a_node 2 30 20; a_node 3 5 5]); (WAY, ws); (RELATION, rs)].
Definition adump (geom : nat -> attrs -> outcome string) (ws rs : list object) : string * option halt :=
  mpdump sp_set (sp_get undef_pos) sp_set (sp_get undef_pos) a_build isort geom (sp_new 10) (sp_new 10) (afile ws rs, Ok tt).
Definition aogr (geom : nat -> attrs -> outcome ogr) (lib : nat -> bool) (ws rs : list object) : list area_row * option halt :=
  toogr2 sp_set (sp_get undef_pos) sp_set (sp_get undef_pos) a_build isort geom lib (sp_new 10) (sp_new 10) (afile ws rs, Ok tt).
Definition some_text (k : nat) (_ : attrs) : outcome string := Ok ("GEOMETRY" ++ print_Z (Z.of_nat k))%string.
Definition but_text (n k : nat) (a : attrs) : outcome string := if Nat.eqb n k then Throw EIllegalGeometry else some_text k a.
Definition some_ogr (_ : nat) (_ : attrs) : outcome ogr := Ok (OgrMulti []).
Definition but_ogr (n k : nat) (_ : attrs) : outcome ogr := if Nat.eqb n k then Throw EIllegalGeometry else Ok (OgrMulti []).
Definition aways : list object :=
  [a_way 5 [1; 2; 3; 1] [mkTag "building" "yes"]; a_way 6 [1; 2; 3; 1] []; a_way 7 [1; 2; 3] [mkTag "building" "yes"]].
Definition arels : list object := [a_rel 8 [6; 9]; a_rel 9 [6; 7]].
Local Open Scope string_scope.
Example C74_ex : adump some_text aways arels =
  (text_of ["Area from way id=10 (orig_id=5) version=1 timestamp=1000000000 uid=5 user=joe"; "  GEOMETRY0"; "  building=yes"; "";
            "Area from relation id=19 (orig_id=9) version=1 timestamp=1000000000 uid=5 user=joe"; "  GEOMETRY1"; "  type=multipolygon"; "  building=yes"; ""], None).
Proof. vm_compute. reflexivity. Qed.
Local Open Scope Z_scope.
Example C74_toogr2_ex : aogr (but_ogr 0) (fun _ => true) aways arels = ([mkARow (OgrMulti []) 19], None) /\
  aogr some_ogr (fun k => Nat.ltb k 1) aways arels = ([mkARow (OgrMulti []) 10], Some (HExn EExit)).
Proof. split; vm_compute; reflexivity. Qed.
(** the hypotheses hold for this file *)
Example C74_hyps_ex : let dom := fun id => 0 <= id /\ id + 10 < 18446744073709551616 in
  store_works sp_set (sp_get undef_pos) (sp_new 10) undef_pos dom /\ sorts isort /\ (forall r ms, exists l, a_build r ms = Ok l) /\
  (forall k a, some_text k a <> Throw EStopReading) /\ in_order (afile aways arels) /\
  (forall w, In (OWay w) (flat_map snd (afile aways arels)) -> way_ok w) /\
  (forall o id, In o (flat_map snd (afile aways arels)) -> In id (used_ids o) -> id_ok dom dom id).
Proof.
  cbv zeta. split; [apply sparse_works; lia|]. split; [exact isort_sorts|]. split; [intros; eexists; reflexivity|]. split; [discriminate|]. split; [|split].
  - split; [|split].
    + intros g [<-|[<-|[<-|[]]]]; (split; [cbn; unfold object_type; tauto|]); intros o H; cbn in H; intuition (subst; reflexivity).
    + vm_compute. repeat (apply NoDup_cons; [cbn; intuition discriminate|]). apply NoDup_nil.
    + vm_compute. repeat (apply NoDup_cons; [cbn; intuition discriminate|]). apply NoDup_nil.
  - intros w H. cbn in H. unfold a_node, a_way, a_rel in H. repeat (destruct H as [H|H]; [first [discriminate H|injection H as <-; split; [discriminate|vm_compute; split; discriminate]]|]). destruct H.
  - intros o id H I. cbn in H. repeat (destruct H as [<-|H]; [cbn in I; split; lia|]). destruct H.
Qed.

(* ---- findings ---- *)
(** mpdump ends at the first illegal geometry: the areas after it are not shown, though nothing is wrong with them. *)
Theorem C74_illegal_refuted : exists ws rs, fst (adump (but_text 0) ws rs) = ""%string /\ snd (adump (but_text 0) ws rs) = Some (HExn EIllegalGeometry) /\
  snd (adump some_text ws rs) = None /\ fst (adump some_text ws (skipn 1 rs)) <> ""%string.
Proof.
  exists aways, arels. split; [vm_compute; reflexivity|]. split; [vm_compute; reflexivity|]. split; [vm_compute; reflexivity|]. vm_compute. discriminate.
Qed.
Print Assumptions C74_illegal_refuted.
(** A closed way gets no area if it is in a multipolygon relation of which other ways are missing: it is in no area at all. *)
Theorem C74_incomplete_refuted : exists w rs, area_shaped w /\ adump some_text [OWay w] rs = (""%string, None) /\ fst (adump some_text [OWay w] []) <> ""%string.
Proof.
  exists (mkWay (a_attrs 5 [mkTag "building" "yes"]) (map (fun r => mkWN r undef_pos) [1; 2; 3; 1])), [a_rel 8 [5; 9]].
  split; [exists 1, 2, 3, []; reflexivity|]. split; [vm_compute; reflexivity|]. vm_compute. discriminate.
Qed.
Print Assumptions C74_incomplete_refuted.
(** In toogr2 areas of different ways can have the same id: only 32 bits of it are left. *)
Theorem C74_same_id_refuted : exists w1 w2 rows, o_id (w_attrs w1) <> o_id (w_attrs w2) /\ way_ok w1 /\ way_ok w2 /\
  aogr some_ogr (fun _ => true) [OWay w1; OWay w2] [] = (rows, None) /\ List.length rows = 2%nat /\ map ar_id rows = [10; 10].
Proof.
  exists (mkWay (a_attrs 5 [mkTag "building" "yes"]) (map (fun r => mkWN r undef_pos) [1; 2; 3; 1])),
    (mkWay (a_attrs 2147483653 [mkTag "building" "yes"]) (map (fun r => mkWN r undef_pos) [1; 2; 3; 1])). eexists.
  split; [discriminate|]. split; [split; [discriminate|vm_compute; split; discriminate]|]. split; [split; [discriminate|vm_compute; split; discriminate]|].
  split; [vm_compute; reflexivity|]. now split.
Qed.
Print Assumptions C74_same_id_refuted.
