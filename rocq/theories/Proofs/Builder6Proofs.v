(** Proofs about Model/Builder.v: the areas returned by build. *)
From Coq Require Import Sorting.Permutation.
From Verif Require Import Base.Prelude Base.SMap Model.Osm Model.Handler Model.Assembler Model.Builder
  Spec.BuilderSpec Proofs.AssemblerProofs Proofs.BuilderProofs Proofs.Builder2Proofs Proofs.Builder3Proofs Proofs.Builder5Proofs.

(* ---- assemble_ways ---- *)
Lemma assemble_spec (rep : bool) ms : Forall way_or_missing ms -> forall seen ts,
  exists W, let L := if rep then first_by_id seen (usable ms) else usable ms in
    assemble_ways rep ms seen ts = Ok (map wi_new W, latest ts L) /\ map way_of W = L.
Proof.
  induction 1 as [|m ms Hm F IH]; intros seen ts; [exists []; cbn; now destruct rep|].
  destruct m as [[n|[a ns]|r]|]; try destruct Hm; cbn [assemble_ways usable w_nodes w_attrs].
  - destruct ns as [|n ns]; [apply IH|].
    cbn [first_by_id w_attrs]. destruct rep; cbn [negb orb].
    + destruct (existsb (Z.eqb (o_id a)) seen) eqn:E; cbn [negb]; [apply IH|].
      destruct (IH (o_id a :: seen) (if o_timestamp a >? ts then o_timestamp a else ts)) as (W & R & E2).
      cbn zeta in R, E2. rewrite R. cbn [obind].
      exists (mkBW a n ns :: W). cbn [map]. split; [|unfold way_of at 1; cbn; now rewrite E2].
      unfold latest. cbn [fold_left w_attrs]. do 3 f_equal. destruct (Z.gtb_spec (o_timestamp a) ts); lia.
    + destruct (IH (o_id a :: seen) (if o_timestamp a >? ts then o_timestamp a else ts)) as (W & R & E2).
      cbn zeta in R, E2. rewrite R. cbn [obind].
      exists (mkBW a n ns :: W). cbn [map]. split; [|unfold way_of at 1; cbn; now rewrite E2].
      unfold latest. cbn [fold_left w_attrs]. do 3 f_equal. destruct (Z.gtb_spec (o_timestamp a) ts); lia.
  - apply IH.
Qed.

(* ---- tags ---- *)
Lemma fill_map_some ts : forall m k, ignore_tag k = false -> (In k (map tkey ts) \/ map_find k m <> None) -> map_find k (fill_map ts m) <> None.
Proof.
  induction ts as [|t ts IH]; intros m k E [H|H]; cbn [fill_map]; try (now destruct H); auto.
  - apply IH; auto. destruct H as [<-|H]; [|auto]. right. rewrite E, map_find_put_eq. congruence.
  - apply IH; auto. right. destruct (ignore_tag (tkey t)) eqn:F; auto.
    destruct (string_dec k (tkey t)) as [->|D]; [rewrite map_find_put_eq; congruence|now rewrite map_find_put_neq].
Qed.
Lemma merge_loop_added ts : forall m area rv, exists add, fst (merge_loop ts m area rv) = area ++ add /\
  forall t, In t add -> In t ts /\ ignore_tag (tkey t) = false /\ map_find (tkey t) m = None.
Proof.
  induction ts as [|t ts IH]; intros m area rv; cbn [merge_loop].
  - exists []. rewrite app_nil_r. split; [auto|intros ? []].
  - destruct (ignore_tag (tkey t)) eqn:E.
    + destruct (IH m area rv) as (add & R & H). exists add. split; auto. intros u I. destruct (H u I). cbn; auto.
    + destruct (map_find (tkey t) m) as [v|] eqn:Ef.
      * destruct (IH m area (if String.eqb v (tvalue t) then rv else false)) as (add & R & H). exists add. split; auto. intros u I. destruct (H u I). cbn; auto.
      * destruct (IH (map_put (tkey t) (tvalue t) m) (tl_add area (tkey t) (tvalue t)) rv) as (add & R & H).
        exists (t :: add). rewrite R. unfold tl_add. rewrite <- app_assoc. split; [now destruct t|].
        intros u [<-|I]; [cbn; auto|]. destruct (H u I) as (H1 & H2 & H3). split; [now right|]. split; auto.
        destruct (string_dec (tkey u) (tkey t)) as [X|D]; [rewrite X, map_find_put_eq in H3; congruence|now rewrite map_find_put_neq in H3].
Qed.
Lemma merge_added area way : exists add, fst (merge_tags area way) = area ++ add /\
  forall t, In t add -> In t way /\ ~ ignored (tkey t) /\ ~ has_key area (tkey t).
Proof.
  unfold merge_tags. destruct (merge_loop_added way (fill_map area []) area true) as (add & R & H). exists add. split; auto.
  intros t I. destruct (H t I) as (H1 & H2 & H3). split; auto. split; [now apply ignore_not|].
  rewrite has_key_in. intros X. apply (fill_map_some area [] (tkey t) H2 (or_introl X)). exact H3.
Qed.

(* ---- the areas ---- *)
Section Build.
  Context {G P : Type}.
  Variable mkring : list step -> option G.
  Variable srt : list way_node -> list way_node.
  Variable closer : way_node -> way_node -> way_node -> bool.
  Variable rep : bool.
  Variable contains : G -> G -> bool.
  Variable touching : list (option G) -> list (option G).
  Variable polygon : G -> list G -> option P.
  Variable multipolygon : list P -> bool.
  Notation ring := (@ring G).

  Definition added (ws : list winfo) (t0 t1 : tag_list) : Prop :=
    exists add, t1 = t0 ++ add /\ forall t, In t add -> ~ ignored (tkey t) /\ ~ has_key t0 (tkey t) /\ exists i, In t (way_tags ws i).
  Lemma has_key_app a b k : has_key (a ++ b) k <-> has_key a k \/ has_key b k.
  Proof. rewrite !has_key_in, map_app, in_app_iff. tauto. Qed.
  Lemma added_refl ws t : added ws t t.
  Proof. exists []. rewrite app_nil_r. split; [auto|intros ? []]. Qed.
  Lemma added_trans ws a b c : added ws a b -> added ws b c -> added ws a c.
  Proof.
    intros (x & -> & H1) (y & -> & H2). exists (x ++ y). rewrite app_assoc. split; auto. intros t I. apply in_app_iff in I as [I|I]; auto.
    destruct (H2 t I) as (X1 & X2 & X3). split; auto. split; auto. rewrite has_key_app in X2. tauto.
  Qed.
  Lemma added_merge ws t i : added ws t (fst (merge_tags t (way_tags ws i))).
  Proof.
    destruct (merge_added t (way_tags ws i)) as (add & R & H). exists add. split; auto. intros u I. destruct (H u I) as (H1 & H2 & H3). eauto.
  Qed.
  Lemma added_way ws one t i : added ws t (merge_way one ws t i).
  Proof.
    unfold merge_way. destruct (untagged (way_tags ws i)); [apply added_refl|]. destruct (same_tags t (way_tags ws i)); [apply added_refl|].
    destruct (untagged t); [apply added_merge|]. destruct one; [apply added_merge|apply added_refl].
  Qed.
  Lemma added_outer ws oc t (r : ring) : added ws t (outer_tags oc ws t r).
  Proof.
    unfold outer_tags. generalize ((oc =? 1)%nat && (List.length (rg_ways r) =? 1)%nat) as one. generalize (rg_ways r) as l.
    intros l one. revert t. induction l as [|i l IH]; intros t; cbn; [apply added_refl|]. eapply added_trans; [apply added_way|apply IH].
  Qed.

  Lemma write_back_other l : forall hs (geo : list (option G)) i, ~ In i l -> nth_error (write_back l hs geo) i = nth_error geo i.
  Proof.
    induction l as [|j l IH]; intros hs geo i N; cbn; auto. destruct hs as [|h hs]; auto. rewrite IH by (intros X; apply N; now right).
    rewrite set_nth_get. destruct (Nat.eqb_spec i j) as [->|]; auto. exfalso. apply N. now left.
  Qed.
  Lemma outer_loop_total ws (rings : list ring) inner container oc :
    (forall i j, (j < List.length rings)%nat -> container i = None -> ~ In i (inner j)) ->
    forall is_ geo tags, (forall i, In i is_ -> container i = None -> nth_error rings i <> None -> exists g, nth_error geo i = Some (Some g)) ->
    outer_loop touching polygon ws rings inner container oc is_ geo tags = Throw EInvalidRing \/
    exists ps tags', outer_loop touching polygon ws rings inner container oc is_ geo tags = Ok (ps, tags') /\ added ws tags tags'.
  Proof.
    intros Hin. induction is_ as [|i is_ IH]; intros geo tags Hg; cbn [outer_loop]; [right; exists [], tags; split; [auto|apply added_refl]|].
    assert (Rest : forall geo' tags', (forall k, container k = None -> nth_error geo' k = nth_error geo k) -> added ws tags tags' ->
      outer_loop touching polygon ws rings inner container oc is_ geo' tags' = Throw EInvalidRing \/
      exists ps tags2, outer_loop touching polygon ws rings inner container oc is_ geo' tags' = Ok (ps, tags2) /\ added ws tags tags2).
    { intros geo' tags' H A. destruct (IH geo' tags') as [R|(ps & t2 & R & A2)]; auto.
      - intros k I C N. rewrite H by auto. apply Hg; auto. now right.
      - right. exists ps, t2. split; auto. eapply added_trans; eauto. }
    destruct (nth_error rings i) as [r|] eqn:Er; [|apply Rest; auto; apply added_refl].
    destruct (container i) as [c|] eqn:Ec; [apply Rest; auto; apply added_refl|].
    set (holes := match inner i with [] => [] | _ => touching (polygons_of geo (inner i)) end).
    assert (Hw : forall k, container k = None -> nth_error (write_back (inner i) holes geo) k = nth_error geo k) by (intros k Ck; apply write_back_other, Hin; auto; apply nth_error_Some; congruence).
    destruct (Hg i (or_introl eq_refl) Ec ltac:(congruence)) as (g & Eg). rewrite Hw, Eg by auto.
    destruct (polygon g _) as [p|]; [|now left].
    destruct (Rest (write_back (inner i) holes geo) (outer_tags oc ws tags r) Hw (added_outer _ _ _ _)) as [R|(ps & t2 & R & A)]; rewrite R; cbn [obind]; eauto.
  Qed.
  Lemma build_mp_total ws (rings : list ring) inner container tags :
    (forall i j, (j < List.length rings)%nat -> container i = None -> ~ In i (inner j)) ->
    (exists e, build_multipolygon touching polygon multipolygon ws rings inner container tags = Throw e /\ is_build_error e = true) \/
    exists tags', build_multipolygon touching polygon multipolygon ws rings inner container tags = Ok tags' /\ added ws tags tags'.
  Proof.
    intros Hin. unfold build_multipolygon.
    destruct (outer_loop_total ws rings inner container (List.length (filter (is_outer container) (seq 0 (List.length rings)))) Hin
       (seq 0 (List.length rings)) (map (fun r => Some (rg_geom r)) rings) tags) as [R|(ps & t & R & A)].
    - intros i _ _ N. rewrite nth_error_map. destruct (nth_error rings i) as [r|]; [|congruence]. cbn. eauto.
    - rewrite R. left. exists EInvalidRing. auto.
    - rewrite R. cbn [obind]. destruct ps; [left; exists ENoRings; auto|]. destruct (multipolygon _); [right; eauto|left; exists EInvalidMultiPolygon; auto].
  Qed.
  Lemma nesting_disjoint con n i j : (j < n)%nat -> snd (nesting con n) i = None -> ~ In i (fst (nesting con n) j).
  Proof.
    intros Lj. unfold nesting. destruct (contains_all con n) as [c ev]. cbn [fst snd]. unfold inner_of. rewrite filter_In, in_seq.
    intros C (L & H). apply andb_true_iff in H as [H1 H2]. unfold container_of in C.
    assert (X : forall l r, (In j l \/ r <> None) -> fold_left (fun r k => if thin n c k i && negb (ev i) then Some k else r) l r <> None).
    { induction l as [|x l IH]; intros r [I|R]; [destruct I|exact R| |]; cbn.
      - apply IH. destruct I as [->|I]; [right; rewrite H1, H2; cbn; congruence|auto].
      - apply IH. right. destruct (thin n c x i && negb (ev i)); congruence. }
    apply (X (seq 0 n) None) in C; auto. left. apply in_seq. lia.
  Qed.

  Lemma extra_ok ws (rings : list ring) container tags i : In i (extra_ways ws rings container tags) ->
    exists w, nth_error ws i = Some w /\ untagged (o_tags (b_attrs (wi_way w))) = false.
  Proof.
    unfold extra_ways. rewrite in_flat_map. intros (k & _ & I).
    destruct (nth_error rings k) as [r|]; [|destruct I]. destruct (container k) as [c|]; [|destruct I].
    destruct (one_way_inner ws rings tags (Some c) r) as [x|] eqn:E; [|destruct I]. destruct I as [->|[]].
    unfold one_way_inner in E. destruct (rg_ways r) as [|y [|]]; try discriminate.
    destruct (untagged (way_tags ws y)) eqn:U; [discriminate|].
    assert (y = i).
    { destruct (same_tags (way_tags ws y) tags); [discriminate|]. destruct (nth_error rings c) as [rc|]; [|congruence].
      destruct (rg_ways rc) as [|z [|]]; try congruence. destruct (same_tags _ _); congruence. }
    subst y. unfold way_tags in U. destruct (nth_error ws i) as [w|]; [|discriminate]. eauto.
  Qed.
  Lemma extra_total ws l (Q : attrs -> Prop) :
    (forall i, In i l -> exists w, nth_error ws i = Some w /\ in_i64b (o_id (b_attrs (wi_way w)) * 2) = true /\
       Q (with_id (b_attrs (wi_way w)) (o_id (b_attrs (wi_way w)) * 2))) ->
    exists xs, extra_areas ws l = Ok xs /\ Forall Q xs.
  Proof.
    induction l as [|i l IH]; intros H; cbn [extra_areas]; [exists []; auto|].
    destruct (H i (or_introl eq_refl)) as (w & E & B & HQ). rewrite E. cbn zeta. unfold area_id_of_way. rewrite B. cbn [obind].
    destruct IH as (xs & R & F); [intros j I; apply H; now right|]. rewrite R. cbn [obind]. eauto.
  Qed.

  Lemma repair_untagged fuel : forall d ps, repair closer fuel d = Ok ps -> forall b, In b ps -> o_tags (b_attrs b) = [].
  Proof.
    induction fuel as [|fuel IH]; intros d ps; cbn [repair].
    - destruct d; [|discriminate]. intros E. injection E as <-. intros b [].
    - destruct d as [|x d]; [intros E; injection E as <-; intros b []|].
      destruct (removelast (x :: d)) as [|c r]; [discriminate|].
      destruct (closest closer (last (x :: d) x) r 1 (0%nat, c)) as [k y].
      destruct (repair closer fuel (remove_nth k (c :: r))) as [ps'| | |] eqn:R; try discriminate. cbn [obind].
      intros E. injection E as <-. intros b [<-|I]; [reflexivity|]. eapply IH; eauto.
  Qed.
  Lemma find_and_repair_untagged ws ws' ok : find_and_repair srt closer rep ws = Ok (ws', ok) ->
    exists V, map wi_way ws' = map wi_way ws ++ V /\ forall b, In b V -> o_tags (b_attrs b) = [].
  Proof.
    unfold find_and_repair. destruct (Nat.odd _); [discriminate|]. destruct (negb rep && _).
    - intros E. injection E as <- <-. exists []. rewrite reset_ways, app_nil_r. split; [auto|intros ? []].
    - destruct (repair closer _ _) as [ps| | |] eqn:R; try discriminate. cbn [obind]. intros E. injection E as <- <-.
      exists ps. rewrite map_app, reset_ways, map_map. cbn. rewrite map_id. split; auto. eapply repair_untagged; eauto.
  Qed.
  (** pseudo ways have no tags *)
  Lemma make_rings_ways W ws rings : make_rings mkring srt closer rep (map wi_new W) = Ok (ws, rings) ->
    exists V, map wi_way ws = W ++ V /\ forall b, In b V -> o_tags (b_attrs b) = [].
  Proof.
    unfold make_rings.
    assert (W0 : map wi_way (map wi_new W) = W) by (rewrite map_map; apply map_id).
    destruct (ring_loop_spec mkring (S (List.length (map wi_new W))) (map wi_new W) [] (J_start mkring W)) as (ws1 & r1 & R1 & J1 & Hw1 & _).
    { pose proof (nfree_le (map wi_new W)). lia. }
    rewrite R1. cbn [obind app] in *. rewrite W0 in Hw1.
    destruct (find_and_repair srt closer rep ws1) as [[ws2 ok]| | |] eqn:R2; try discriminate. cbn [obind].
    destruct ok; [|discriminate]. cbn [negb].
    assert (J2 : J mkring ws2 r1).
    { unfold find_and_repair in R2. destruct (Nat.odd _); [discriminate|]. destruct (negb rep && _).
      - injection R2 as _ X. discriminate.
      - destruct (repair closer _ _) as [ps| | |]; try discriminate. cbn [obind] in R2. injection R2 as <-. now apply J_reset. }
    destruct (find_and_repair_untagged _ _ _ R2) as (V & E2 & U).
    destruct (ring_loop_spec mkring (S (List.length ws2)) ws2 r1 J2) as (ws3 & more & R3 & J3 & Hw3 & _).
    { pose proof (nfree_le ws2). lia. }
    rewrite R3. cbn [obind]. intros E. exists V. split; auto.
    assert (ws = ws3) as -> by (destruct (r1 ++ more); congruence). congruence.
  Qed.

  Lemma assemble_W ms W : Forall way_or_missing ms -> map way_of W = (if rep then first_by_id [] (usable ms) else usable ms) ->
    forall ts, assemble_ways rep ms [] ts = Ok (map wi_new W, latest ts (map way_of W)).
  Proof.
    intros Hm E ts. destruct (assemble_spec rep ms Hm [] ts) as (W' & R & EW). cbn zeta in R, EW. rewrite R, E.
    assert (W' = W) as ->; [|reflexivity].
    assert (H : map way_of W' = map way_of W) by (rewrite EW, E; reflexivity).
    clear - H. revert W H. induction W' as [|x W' IH]; intros [|y W] H; cbn in H; try discriminate; auto.
    injection H as H1 H2 H3 H4. f_equal; auto. destruct x, y; cbn in *; congruence.
  Qed.
  Lemma rel_id_ok i : in_i64b (2 * i) = true -> in_i64b (2 * i + Z.sgn i) = true ->
    area_id_of_relation i = Ok (2 * i + Z.sgn i).
  Proof.
    intros Hr1 Hr2. unfold area_id_of_relation. cbn zeta.
    assert (sgn i = Z.sgn i) as ->.
    { unfold sgn. destruct (Z.ltb_spec 0 i), (Z.ltb_spec i 0); cbn; lia. }
    now rewrite (Z.mul_comm i 2), Hr1, Hr2.
  Qed.
  Lemma untagged_false ts : untagged ts = false <-> exists k v, has_tag ts k v /\ ~ ignored k.
  Proof.
    split.
    - intros U. unfold untagged in U. induction ts as [|t l IH]; [discriminate|].
      cbn in U. destruct (ignore_tag (tkey t)) eqn:Ei.
      + destruct IH as (k & v & H1 & H2); auto. exists k, v. split; auto. now right.
      + exists (tkey t), (tvalue t). split; [left; now destruct t|]. now apply ignore_not.
    - intros (k & v & H & N). destruct (untagged ts) eqn:U; auto. exfalso. apply N. now apply (proj1 (untagged_iff ts) U k v).
  Qed.
  (** the build after make_rings *)
  Lemma build_core r ms W ws rings :
    Forall way_or_missing ms -> in_i64b (2 * o_id (r_attrs r)) = true -> in_i64b (2 * o_id (r_attrs r) + Z.sgn (o_id (r_attrs r))) = true ->
    (forall w, In w (map way_of W) -> in_i64b (2 * o_id (w_attrs w)) = true) ->
    map way_of W = (if rep then first_by_id [] (usable ms) else usable ms) ->
    make_rings mkring srt closer rep (map wi_new W) = Ok (ws, rings) ->
    let L := map way_of W in
    let nest := nesting (ring_matrix contains rings) (List.length rings) in
    exists xs, extra_areas ws (extra_ways ws rings (snd nest) (o_tags (r_attrs r))) = Ok xs /\ Forall (own_area L) xs /\
      ((build mkring srt closer rep contains touching polygon multipolygon r ms = Ok xs /\
        exists e, build_multipolygon touching polygon multipolygon ws rings (fst nest) (snd nest) (o_tags (r_attrs r)) = Throw e) \/
       exists a, build mkring srt closer rep contains touching polygon multipolygon r ms = Ok (xs ++ [a]) /\ relation_area r L a).
  Proof.
    intros Hm Hr1 Hr2 Hw EW E L nest. unfold build. rewrite rel_id_ok by auto. cbn [obind].
    rewrite (assemble_W ms W Hm EW). cbn [obind].
    destruct (make_rings_ways W ws rings E) as (V & Hws & HV). rewrite E.
    assert (Way : forall i w, nth_error ws i = Some w -> o_tags (b_attrs (wi_way w)) = [] \/ In (way_of (wi_way w)) L).
    { intros i w Ei. apply nth_error_ways in Ei. rewrite Hws in Ei. apply nth_error_In, in_app_iff in Ei as [I|I]; [right|left; auto].
      unfold L. now apply in_map. }
    rewrite (surjective_pairing (nesting _ _)). fold nest.
    destruct (extra_total ws (extra_ways ws rings (snd nest) (o_tags (r_attrs r))) (own_area L)) as (xs & Rx & Fx).
    { intros i I. apply extra_ok in I as (w & Ei & U). exists w. split; auto.
      destruct (Way _ _ Ei) as [X|I]; [rewrite X in U; discriminate|]. split.
      - rewrite Z.mul_comm. now apply (Hw (way_of (wi_way w))).
      - exists (way_of (wi_way w)). cbn. split; auto. split; [lia|]. split; auto. split; auto. split; auto.
        now apply untagged_false. }
    rewrite Rx. cbn [obind]. exists xs. split; auto. split; auto.
    destruct (build_mp_total ws rings (fst nest) (snd nest) (o_tags (r_attrs r))) as [(e & Re & Be)|(tags & Rt & add & Et & Ht)].
    { intros i j Lj. apply nesting_disjoint. exact Lj. }
    - rewrite Re, Be. left. eauto.
    - rewrite Rt. right. eexists. split; [reflexivity|]. unfold relation_area. cbn. split; auto. split; auto. split; auto. split; auto. split; auto.
      exists add. split; auto. intros t I. destruct (Ht t I) as (H1 & H2 & i & H3). split; auto. split; auto.
      unfold way_tags in H3. destruct (nth_error ws i) as [w|] eqn:Ei; [|destruct H3].
      destruct (Way _ _ Ei) as [X|Iw]; [rewrite X in H3; destruct H3|]. exists (way_of (wi_way w)). auto.
  Qed.
  Lemma first_by_id_in ms w : In w (if rep then first_by_id [] (usable ms) else usable ms) -> In w (usable ms).
  Proof.
    destruct rep; auto. clear.
    generalize (@nil Z) as seen. induction (usable ms) as [|x l IH]; intros seen; cbn; auto. destruct (existsb _ seen); [right; eauto|]. intros [->|I]; [now left|right; eauto].
  Qed.
  Lemma build_throws r ms W e : sorts srt ->
    Forall way_or_missing ms -> in_i64b (2 * o_id (r_attrs r)) = true -> in_i64b (2 * o_id (r_attrs r) + Z.sgn (o_id (r_attrs r))) = true ->
    map way_of W = (if rep then first_by_id [] (usable ms) else usable ms) ->
    make_rings mkring srt closer rep (map wi_new W) = Throw e ->
    build mkring srt closer rep contains touching polygon multipolygon r ms = Ok [].
  Proof.
    intros Hs Hm Hr1 Hr2 EW E. unfold build. rewrite rel_id_ok by auto. cbn [obind]. rewrite (assemble_W ms W Hm EW). cbn [obind]. rewrite E.
    assert (is_build_error e = true) as ->; [|reflexivity].
    destruct (make_rings_spec mkring srt closer rep W Hs) as [(R' & _)|(V & ws & rings & _ & _ & _ & _ & _ & R')]; cbn zeta in R'; rewrite E in R'.
    - injection R' as ->. reflexivity.
    - destruct rings; [injection R' as ->; reflexivity|discriminate].
  Qed.
  Lemma build_spec r ms :
    sorts srt -> Forall way_or_missing ms -> in_i64b (2 * o_id (r_attrs r)) = true -> in_i64b (2 * o_id (r_attrs r) + Z.sgn (o_id (r_attrs r))) = true ->
    (forall w, In w (usable ms) -> in_i64b (2 * o_id (w_attrs w)) = true) ->
    let L := if rep then first_by_id [] (usable ms) else usable ms in
    exists xs, Forall (own_area L) xs /\
      (build mkring srt closer rep contains touching polygon multipolygon r ms = Ok xs \/
       exists a, build mkring srt closer rep contains touching polygon multipolygon r ms = Ok (xs ++ [a]) /\ relation_area r L a).
  Proof.
    intros Hs Hm Hr1 Hr2 Hw L.
    destruct (assemble_spec rep ms Hm [] 0) as (W & _ & EW). cbn zeta in EW. fold L in EW.
    assert (HL : forall w, In w (map way_of W) -> in_i64b (2 * o_id (w_attrs w)) = true).
    { intros w I. apply Hw. rewrite EW in I. now apply first_by_id_in. }
    destruct (make_rings mkring srt closer rep (map wi_new W)) as [[ws rings]|e| |] eqn:E.
    - destruct (build_core r ms W ws rings Hm Hr1 Hr2 HL EW E) as (xs & _ & F & H). cbn zeta in *. rewrite EW in *. exists xs. split; auto.
      destruct H as [[H _]|H]; auto.
    - exists []. split; auto. left. eapply build_throws; eauto.
    - exfalso. destruct (make_rings_spec mkring srt closer rep W Hs) as [(R' & _)|(V & ws & rings & _ & _ & _ & _ & _ & R')]; cbn zeta in R'; rewrite E in R'; [discriminate|].
      destruct rings; discriminate.
    - exfalso. destruct (make_rings_spec mkring srt closer rep W Hs) as [(R' & _)|(V & ws & rings & _ & _ & _ & _ & _ & R')]; cbn zeta in R'; rewrite E in R'; [discriminate|].
      destruct rings; discriminate.
  Qed.
End Build.
