(** Proofs about the programs that assemble multipolygons: what they write. *)
From Verif Require Import Base.Prelude Base.Decimal Model.Osm Model.Geom Model.Area Model.Store Model.Handler Model.Assembler Model.Convert Model.Debug Model.Members Model.Osmjs Model.Ogr Model.Areas
  Spec.OsmSpec Spec.HandlerSpec Spec.AssemblerSpec Spec.ToshapeSpec Spec.MembersSpec Spec.AreasSpec
  Proofs.ToshapeProofs Proofs.MembersProofs Proofs.AreasProofs.

(* ---- mpdump ---- *)
Lemma from_way_spec id : comes_from id (if area_from_way id then "way" else "relation")%string (area_orig_id id).
Proof.
  unfold comes_from, area_from_way, area_orig_id. pose proof (Z.quot_rem' id 2) as Q. destruct (Z.eqb_spec (Z.rem id 2) 0) as [E|E].
  - left. split; [reflexivity|]. lia.
  - right. split; [reflexivity|]. assert (id <> 0) by (intros ->; apply E; reflexivity). split; [auto|].
    assert (R : Z.rem id 2 = Z.sgn id); [|lia]. destruct (Z.lt_total id 0) as [L|[L|L]]; [|lia|].
    + pose proof (Z.rem_bound_neg_pos id 2). rewrite Z.sgn_neg by auto. lia.
    + pose proof (Z.rem_bound_pos_pos id 2). rewrite Z.sgn_pos by auto. lia.
Qed.
Local Open Scope string_scope.
Lemma dump_area_text a wkt : area_text a wkt (dump_area a wkt).
Proof.
  eexists _, _. split; [apply from_way_spec|]. unfold dump_area. cbn [text_of]. rewrite text_app, <- dump_tags_lines. cbn [text_of].
  rewrite !sapp_assoc. destruct (area_from_way (o_id a)); reflexivity.
Qed.
Lemma dump_none geom l : forall k out s, run_areas (dump_on_area geom) l (k, out) = (s, None) ->
  exists texts, Forall2 (fun ka t => exists wkt, geom (fst ka) (snd ka) = Ok wkt /\ area_text (snd ka) wkt t) (combine (seq k (List.length l)) l) texts /\
    s = ((k + List.length l)%nat, out ++ together texts).
Proof.
  induction l as [|a l IH]; intros k out s H; cbn [run_areas] in H.
  - injection H as <-. exists []. split; [constructor|]. cbn. now rewrite Nat.add_0_r, sapp_nil_r.
  - unfold dump_on_area at 1 in H. cbn [fst snd] in H. destruct (geom k a) as [wkt|e| |] eqn:G; try discriminate H.
    apply IH in H as (texts & F & ->). exists (dump_area a wkt :: texts). split.
    + cbn [List.length seq combine]. constructor; [|exact F]. exists wkt. split; [exact G|apply dump_area_text].
    + cbn [List.length together fold_right]. rewrite Nat.add_succ_r, sapp_assoc. reflexivity.
Qed.

(* ---- toogr2 ---- *)
Local Open Scope Z_scope.
Lemma building_get a : match get_value_by_key (o_tags a) "building" with Some _ => is_building a | None => ~ is_building a end.
Proof.
  destruct (get_value_by_key (o_tags a) "building") as [v|] eqn:E.
  - exists v. now apply tagged_get.
  - intros (v & H). apply tagged_get in H. congruence.
Qed.
Lemma illegal_spec e : illegal e = true <-> e = EIllegalGeometry.
Proof. unfold illegal, EIllegalGeometry. destruct e; try (split; discriminate). rewrite Z.eqb_eq. split; [now intros ->|now intros [= ->]]. Qed.
Lemma row_ok geom k a g : geom k a = Ok g -> building_row geom (k, a) (mkARow g (to_i32 (o_id a))).
Proof.
  intros G. split; [exact G|]. cbn [ar_id snd]. split; [pose proof (to_i32_range (o_id a)) as R; unfold in_i32, int32_min, int32_max in R; lia|].
  exists ((o_id a + 2147483648) / 4294967296). unfold to_i32. pose proof (Z.div_mod (o_id a + 2147483648) 4294967296). lia.
Qed.
Lemma ogr_none geom lib l : forall k rows c s, run_areas (ogr_on_area geom lib) l (mkAg k rows c) = (s, None) ->
  exists rs, exported (good_building geom) (building_row geom) (combine (seq k (List.length l)) l) rs /\
    Forall (fun ka => is_building (snd ka) -> good_building geom ka \/ skipped_building geom ka) (combine (seq k (List.length l)) l) /\
    s = mkAg (k + List.length l) (rows ++ rs) (c + List.length rs) /\ (forall i, (c <= i < c + List.length rs)%nat -> lib i = true).
Proof.
  induction l as [|a l IH]; intros k rows c s H; cbn [run_areas] in H.
  - injection H as <-. exists []. split; [constructor|]. split; [constructor|]. cbn [List.length]. rewrite !Nat.add_0_r, app_nil_r. split; [auto|]. intros i Hi. lia.
  - unfold ogr_on_area at 1 in H. cbn [ag_areas ag_rows ag_calls] in H. pose proof (building_get a) as B. cbn [List.length seq combine].
    assert (SK : run_areas (ogr_on_area geom lib) l (mkAg (S k) rows c) = (s, None) -> ~ good_building geom (k, a) -> (is_building a -> skipped_building geom (k, a)) ->
      exists rs, exported (good_building geom) (building_row geom) ((k, a) :: combine (seq (S k) (List.length l)) l) rs /\
        Forall (fun ka => is_building (snd ka) -> good_building geom ka \/ skipped_building geom ka) ((k, a) :: combine (seq (S k) (List.length l)) l) /\
        s = mkAg (k + S (List.length l)) (rows ++ rs) (c + List.length rs) /\ (forall i, (c <= i < c + List.length rs)%nat -> lib i = true)).
    { intros R NG OK. apply IH in R as (rs & X & F & -> & L). exists rs. split; [now apply exp_skip|]. split; [constructor; auto|].
      split; [now rewrite Nat.add_succ_r|auto]. }
    destruct (get_value_by_key (o_tags a) "building") as [v|]; [|apply SK; [exact H|intros [C _]; tauto|tauto]].
    destruct (geom k a) as [g|e| |] eqn:G; try discriminate H.
    + destruct (lib c) eqn:Lc; [|discriminate H]. apply IH in H as (rs & X & F & -> & L). exists (mkARow g (to_i32 (o_id a)) :: rs). split; [|split; [|split]].
      * apply exp_take; [split; [exact B|exists g; exact G]|now apply row_ok|exact X].
      * constructor; [|exact F]. intros _. left. split; [exact B|exists g; exact G].
      * cbn [List.length]. rewrite !Nat.add_succ_r, <- app_assoc. reflexivity.
      * intros i Hi. cbn [List.length] in Hi. destruct (Nat.eq_dec i c) as [->|Ni]; [exact Lc|]. apply L. lia.
    + destruct (illegal e) eqn:Ie; [|discriminate H]. apply illegal_spec in Ie. subst e. apply SK; [exact H| |intros _; split; [exact B|exact G]].
      intros [_ [g C]]. cbn [fst snd] in C. congruence.
Qed.

Section Programs.
  Context {P N : Type}.
  Variable pset : Z -> position -> P -> outcome P.
  Variable pget : Z -> P -> outcome position.
  Variable nset : Z -> position -> N -> outcome N.
  Variable nget : Z -> N -> outcome position.
  Variable build : relation -> list (option object) -> outcome (list attrs).
  Variable srt : list minfo -> list minfo.
  Variable p0 : P.
  Variable n0 : N.
  Variable dflt : position.
  Variable domp domn : Z -> Prop.

  Theorem mpdump_program : forall geom, store_works pset pget p0 dflt domp -> store_works nset nget n0 dflt domn -> sorts srt ->
    (forall r ms, exists l, build r ms = Ok l) -> (forall k a, geom k a <> Throw EStopReading) -> forall gs, in_order gs ->
    (forall w, In (OWay w) (flat_map snd gs) -> way_ok w) -> (forall o id, In o (flat_map snd gs) -> In id (used_ids o) -> id_ok domp domn id) ->
    exists l1 l2 texts h, areas_of_file build (located_stream [] (flat_map snd gs) dflt) (l1 ++ l2) /\ area_texts geom l1 texts /\
      mpdump pset pget nset nget build srt geom p0 n0 (gs, Ok tt) = (together texts, h) /\
      match h with
      | None => l2 = []
      | Some x => exists a l3, l2 = a :: l3 /\ ends_with (geom (List.length l1) a) x
      end.
  Proof.
    intros geom WP WN SR BT NS gs IO WO D.
    assert (NS' : forall a s, snd (dump_on_area geom a s) <> Some (HExn EStopReading)).
    { intros a s. unfold dump_on_area. specialize (NS (fst s) a). destruct (geom (fst s) a); cbn; congruence. }
    destruct (two_passes_run (dump_on_area geom) pset pget nset nget build srt SR BT dflt domp domn p0 n0 WP WN NS' gs (0%nat, ""%string) IO WO D) as (A & AF & E).
    unfold mpdump. rewrite E. destruct (run_areas (dump_on_area geom) A (0%nat, ""%string)) as [s h] eqn:R.
    pose proof R as R'. apply run_areas_split in R' as [->|(l1 & a & l2 & s1 & x & -> & R1 & O & ->)].
    - apply dump_none in R as (texts & F & ->). exists A, [], texts, None. rewrite app_nil_r. auto.
    - apply dump_none in R1 as (texts & F & ->). exists l1, (a :: l2), texts, (Some x). split; [exact AF|]. split; [exact F|].
      unfold dump_on_area in O. cbn [fst snd] in O. destruct (geom (0 + List.length l1)%nat a) as [w|e| |] eqn:G; cbn in O; try discriminate O; injection O as <- <-;
        (split; [reflexivity|]; exists a, l2; split; [reflexivity|]; cbn [Nat.add] in G; rewrite G; reflexivity).
  Qed.

  Theorem toogr2_program : forall geom lib, store_works pset pget p0 dflt domp -> store_works nset nget n0 dflt domn -> sorts srt ->
    (forall r ms, exists l, build r ms = Ok l) -> (forall k a, geom k a <> Throw EStopReading) -> forall gs, in_order gs ->
    (forall w, In (OWay w) (flat_map snd gs) -> way_ok w) -> (forall o id, In o (flat_map snd gs) -> In id (used_ids o) -> id_ok domp domn id) ->
    exists l1 l2 rows h, areas_of_file build (located_stream [] (flat_map snd gs) dflt) (l1 ++ l2) /\
      exported (good_building geom) (building_row geom) (numbered l1) rows /\
      Forall (fun ka => is_building (snd ka) -> good_building geom ka \/ skipped_building geom ka) (numbered l1) /\
      (forall i, (i < List.length rows)%nat -> lib i = true) /\
      toogr2 pset pget nset nget build srt geom lib p0 n0 (gs, Ok tt) = (rows, h) /\
      match h with
      | None => l2 = []
      | Some x => exists a l3, l2 = a :: l3 /\ is_building a /\
          ((geom (List.length l1) a <> Throw EIllegalGeometry /\ ends_with (geom (List.length l1) a) x) \/
           ((exists g, geom (List.length l1) a = Ok g) /\ lib (List.length rows) = false /\ x = HExn EExit))
      end.
  Proof.
    intros geom lib WP WN SR BT NS gs IO WO D.
    assert (NS' : forall a s, snd (ogr_on_area geom lib a s) <> Some (HExn EStopReading)).
    { intros a s. unfold ogr_on_area. destruct (get_value_by_key (o_tags a) "building"); [|discriminate]. specialize (NS (ag_areas s) a).
      destruct (geom (ag_areas s) a); cbn; [destruct (lib (ag_calls s)); cbn; discriminate| |discriminate|discriminate].
      destruct (illegal e); cbn; congruence. }
    destruct (two_passes_run (ogr_on_area geom lib) pset pget nset nget build srt SR BT dflt domp domn p0 n0 WP WN NS' gs (mkAg 0 [] 0) IO WO D) as (A & AF & E).
    unfold toogr2. rewrite E. destruct (run_areas (ogr_on_area geom lib) A (mkAg 0 [] 0)) as [s h] eqn:R.
    pose proof R as R'. apply run_areas_split in R' as [->|(l1 & a & l2 & s1 & x & -> & R1 & O & ->)].
    - apply ogr_none in R as (rs & X & F & -> & L). exists A, [], rs, None. rewrite app_nil_r. split; [exact AF|]. split; [exact X|]. split; [exact F|].
      split; [intros; apply L; lia|]. now split.
    - apply ogr_none in R1 as (rs & X & F & -> & L). exists l1, (a :: l2), rs, (Some x). split; [exact AF|]. split; [exact X|]. split; [exact F|].
      split; [intros; apply L; lia|]. unfold ogr_on_area in O. cbn [ag_areas ag_rows ag_calls Nat.add app] in O. pose proof (building_get a) as B.
      destruct (get_value_by_key (o_tags a) "building") as [v|]; [|discriminate O].
      assert (Q : forall y, Some y = Some x -> ag_rows s = rs -> geom (List.length l1) a <> Throw EIllegalGeometry -> ends_with (geom (List.length l1) a) y ->
        (ag_rows s, Some x) = (rs, Some x) /\ exists a0 l3, a :: l2 = a0 :: l3 /\ is_building a0 /\ ((geom (List.length l1) a0 <> Throw EIllegalGeometry /\ ends_with (geom (List.length l1) a0) x) \/
           ((exists g, geom (List.length l1) a0 = Ok g) /\ lib (List.length rs) = false /\ x = HExn EExit))).
      { intros y [= <-] -> N1 N2. split; [reflexivity|]. exists a, l2. auto. }
      destruct (geom (List.length l1) a) as [g|e| |] eqn:G.
      + destruct (lib (List.length rs)) eqn:Ll; [discriminate O|]. injection O as <- <-. split; [reflexivity|]. exists a, l2. split; [reflexivity|]. split; [exact B|].
        right. split; [exists g; exact G|]. now split.
      + destruct (illegal e) eqn:Ie; [discriminate O|]. injection O as <- <-. apply (Q (HExn e)); auto; [|reflexivity].
        intros [= ->]. rewrite (proj2 (illegal_spec _) eq_refl) in Ie. discriminate.
      + injection O as <- <-. apply (Q HUB); auto; [discriminate|reflexivity].
      + injection O as <- <-. apply (Q HUB); auto; [discriminate|reflexivity].
  Qed.
End Programs.
