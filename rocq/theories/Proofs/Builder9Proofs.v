(** Proofs about Model/Builder.v: geometry and tags of the area of the relation. *)
From Verif Require Import Base.Prelude Model.Osm Model.Handler Model.Assembler Model.Builder
  Spec.BuilderSpec Proofs.AssemblerProofs Proofs.BuilderProofs Proofs.Builder2Proofs Proofs.Builder3Proofs
  Proofs.Builder4Proofs Proofs.Builder5Proofs Proofs.Builder6Proofs Proofs.Builder8Proofs.

(* ---- nesting ---- *)
Lemma directly_iff con n i j : directly con n i j = true <-> direct con n i j.
Proof.
  unfold directly, direct. rewrite andb_true_iff, negb_true_iff. split; intros [H1 H2]; split; auto.
  - intros k Lk A B. apply not_true_iff_false in H2. apply H2. apply existsb_exists. exists k. rewrite A, B. split; auto. apply in_seq. lia.
  - apply not_true_iff_false. intros X. apply existsb_exists in X as (k & Ik & X). apply andb_true_iff in X as [A B]. apply in_seq in Ik. apply (H2 k); auto. lia.
Qed.
Lemma inner_holes con n : proper_nesting con -> (forall j, (j < n)%nat -> (depth con n j <= 2)%nat) \/ outside_in con n ->
  forall i, (i < n)%nat -> fst (nesting con n) i = holes con n i.
Proof.
  intros Pn Hex i Li. pose proof (nesting_exact con Pn n Hex i) as X.
  unfold nesting in *. destruct (contains_all con n) as [c ev]. cbn [fst] in *. unfold inner_of, holes in *.
  apply filter_ext_in. intros j Ij. apply in_seq in Ij. specialize (X j Li ltac:(lia)). rewrite filter_In, in_seq in X.
  apply Bool.eq_iff_eq_true. rewrite (andb_true_iff (directly _ _ _ _)), directly_iff. rewrite <- X. split; [split; auto; lia|tauto].
Qed.
Lemma tops_outer con n : proper_nesting con -> filter (is_outer (snd (nesting con n))) (seq 0 n) = outer_rings con n.
Proof.
  intros Pn. unfold outer_rings. apply filter_ext_in. intros j Ij. apply in_seq in Ij. pose proof (nesting_holes con Pn n j ltac:(lia)) as X.
  rewrite <- Nat.negb_odd. unfold is_outer. destruct (snd (nesting con n) j) as [c|].
  - destruct X as [-> _]; [reflexivity|congruence].
  - destruct (Nat.odd (depth con n j)); [|reflexivity]. destruct X as [_ X]. now specialize (X eq_refl).
Qed.
Lemma holes_disjoint con n i i' j : uncrossed con -> In j (holes con n i) -> In j (holes con n i') -> (i < n)%nat -> (i' < n)%nat -> i = i'.
Proof.
  unfold holes. intros U I I' Li Li'. apply filter_In in I as [_ I], I' as [_ I']. apply andb_true_iff in I as [I _], I' as [I' _].
  apply directly_iff in I as [A B], I' as [A' B']. destruct (U _ _ _ A A') as [|[X|X]]; auto; exfalso; [apply (B i')|apply (B' i)]; auto.
Qed.

(* ---- write back ---- *)
Lemma write_back_length {G} l : forall hs (geo : list (option G)), List.length (write_back l hs geo) = List.length geo.
Proof. induction l as [|j l IH]; intros hs geo; cbn; auto. destruct hs; auto. now rewrite IH, set_nth_length. Qed.
Lemma polygons_back {G} l : forall hs (geo : list (option G)), NoDup l -> List.length hs = List.length l -> (forall i, In i l -> (i < List.length geo)%nat) ->
  polygons_of (write_back l hs geo) l = hs.
Proof.
  induction l as [|j l IH]; intros hs geo Nd E B; destruct hs as [|h hs]; try discriminate; auto.
  apply NoDup_cons_iff in Nd as [N Nd]. cbn [write_back]. unfold polygons_of in *. cbn [map].
  rewrite write_back_other by exact N. rewrite set_nth_get, Nat.eqb_refl.
  assert (Lj : (j < List.length geo)%nat) by (apply B; now left).
  apply Nat.ltb_lt in Lj. rewrite Lj. f_equal. apply IH; auto. intros i Ii. rewrite set_nth_length. apply B. now right.
Qed.

Section Build.
  Context {G P : Type}.
  Variable mkring : list step -> option G.
  Variable srt : list way_node -> list way_node.
  Variable closer : way_node -> way_node -> way_node -> bool.
  Variable rep : bool.
  Variable contains : G -> G -> bool.
  Variable touching : list (option G) -> list (option G).
  Variable polygon : G -> list G -> option P.
  Variable multipolygon : list P -> bool.
  Notation ring := (@ring G).
  Notation bld r ms := (build mkring srt closer rep contains touching polygon multipolygon r ms).
  Hypothesis Htouch : forall l, List.length (touching l) = List.length l.

  Lemma some_list_flat {A} (l : list (option A)) : some_list l = flat_map (fun o => match o with Some g => [g] | None => [] end) l.
  Proof. induction l as [|[x|] l IH]; cbn; congruence. Qed.

  (** the polygon of one outer ring, in terms of the lists of inner rings *)
  Definition shape_in (rings : list ring) (inner : nat -> list nat) (j : nat) : option P :=
    match nth_error rings j with
    | None => None
    | Some r => polygon (rg_geom r) (some_list (match inner j with [] => [] | hs => touching (map (fun i => option_map rg_geom (nth_error rings i)) hs) end))
    end.
  Definition tags_in (ws : list winfo) (rings : list ring) (oc : nat) (tags : tag_list) (j : nat) : tag_list :=
    match nth_error rings j with None => tags | Some r => outer_tags oc ws tags r end.

  Lemma outer_loop_exact ws (rings : list ring) inner container oc :
    (forall i j, (j < List.length rings)%nat -> container i = None -> ~ In i (inner j)) ->
    (forall i, (i < List.length rings)%nat -> NoDup (inner i)) ->
    (forall i j, (i < List.length rings)%nat -> In j (inner i) -> (j < List.length rings)%nat) ->
    (forall i i' j, (i < List.length rings)%nat -> (i' < List.length rings)%nat -> In j (inner i) -> In j (inner i') -> i = i') ->
    forall is_ geo tags, NoDup is_ -> List.length geo = List.length rings ->
    (forall i, In i is_ -> (i < List.length rings)%nat) ->
    (forall i, In i is_ -> container i = None ->
       nth_error geo i = option_map (fun r => Some (rg_geom r)) (nth_error rings i) /\
       forall k, In k (inner i) -> nth_error geo k = option_map (fun r => Some (rg_geom r)) (nth_error rings k)) ->
    let tops := filter (is_outer container) is_ in
    (exists ps, map (shape_in rings inner) tops = map Some ps /\
       outer_loop touching polygon ws rings inner container oc is_ geo tags = Ok (ps, fold_left (tags_in ws rings oc) tops tags)) \/
    ((forall ps, map (shape_in rings inner) tops <> map Some ps) /\
     outer_loop touching polygon ws rings inner container oc is_ geo tags = Throw EInvalidRing).
  Proof.
    intros Hin Hnd Hlt Hdis. induction is_ as [|i is_ IH]; intros geo tags Nd Lg Hi Hg; cbn [outer_loop].
    { left. exists []. split; reflexivity. }
    apply NoDup_cons_iff in Nd as [Ni Nd].
    assert (Li : (i < List.length rings)%nat) by (apply Hi; now left).
    destruct (nth_error rings i) as [r|] eqn:Er; [|apply nth_error_None in Er; lia].
    cbn [filter]. assert (Ei : is_outer container i = match container i with None => true | Some _ => false end) by reflexivity.
    rewrite Ei. clear Ei. destruct (container i) as [c|] eqn:Ec.
    { apply (IH geo tags Nd Lg). - intros k Ik. apply Hi. now right. - intros k Ik. apply Hg. now right. }
    destruct (Hg i (or_introl eq_refl) Ec) as [Eg Ek]. rewrite Er in Eg. cbn [option_map] in Eg.
    set (hs := match inner i with [] => [] | _ => touching (polygons_of geo (inner i)) end).
    assert (Lh : List.length hs = List.length (inner i)).
    { unfold hs. destruct (inner i) eqn:Ei; [reflexivity|]. rewrite Htouch. unfold polygons_of. now rewrite map_length. }
    rewrite write_back_other by (apply Hin; auto). rewrite Eg.
    rewrite polygons_back; [|auto|exact Lh|intros k Ik; rewrite Lg; eapply Hlt; eauto].
    assert (Sh : shape_in rings inner i = polygon (rg_geom r) (some_list hs)).
    { unfold shape_in. rewrite Er. do 2 f_equal. unfold hs. clear - Ek. destruct (inner i) as [|x l] eqn:Ei; [reflexivity|]. f_equal.
      unfold polygons_of. apply map_ext_in. intros k Ik. rewrite (Ek k Ik). now destruct (nth_error rings k). }
    cbn [map fold_left]. rewrite Sh. unfold tags_in at 2. rewrite Er.
    destruct (polygon (rg_geom r) (some_list hs)) as [p|] eqn:Ep.
    2: { right. split; [|reflexivity]. intros [|p ps]; cbn [map]; [discriminate|]. intros X. discriminate. }
    destruct (IH (write_back (inner i) hs geo) (outer_tags oc ws tags r) Nd) as [(ps & E1 & E2)|(E1 & E2)].
    - now rewrite write_back_length.
    - intros k Ik. apply Hi. now right.
    - intros k Ik Ck. destruct (Hg k (or_intror Ik) Ck) as [A B]. split.
      + rewrite write_back_other by (apply Hin; auto). exact A.
      + intros m Im. rewrite write_back_other; [now apply B|]. intros X. apply Ni.
        rewrite (Hdis i k m); auto. apply Hi. now right.
    - left. exists (p :: ps). cbn [map]. split; [now rewrite E1|]. rewrite E2. reflexivity.
    - right. split; [|now rewrite E2]. intros [|q ps]; cbn [map]; [discriminate|]. intros X. injection X as _ X. now apply (E1 ps).
  Qed.

  (* ---- tags ---- *)
  Definition tagged_unique (ws : list winfo) : Prop := forall i, keys_unique (way_tags ws i).
  Lemma merge_way_tagged ws tags i : untagged tags = false -> merge_way false ws tags i = tags.
  Proof. intros U. unfold merge_way. rewrite U. destruct (untagged (way_tags ws i)); [reflexivity|]. now destruct (same_tags _ _). Qed.
  Lemma merge_ways_tagged ws l : forall tags, untagged tags = false -> fold_left (merge_way false ws) l tags = tags.
  Proof. induction l as [|i l IH]; intros tags U; cbn [fold_left]; auto. rewrite merge_way_tagged by auto. auto. Qed.
  Lemma merge_way_untagged ws one tags i : keys_unique tags -> tagged_unique ws -> untagged tags = true ->
    merge_way one ws tags i = if other_tags tags (way_tags ws i) then tags ++ filter (is_new tags) (way_tags ws i) else tags.
  Proof.
    intros K Kw U. unfold merge_way, other_tags. rewrite U. destruct (untagged (way_tags ws i)); auto. destruct (same_tags _ _); auto.
    cbn [negb andb]. apply merge_tags_spec; auto.
  Qed.
  Lemma more_tagged tags t : untagged tags = true -> untagged t = false -> untagged (tags ++ filter (is_new tags) t) = false.
  Proof.
    intros U T. apply untagged_false. apply untagged_false in T as (k & v & I & N). exists k, v. split; auto.
    unfold has_tag in *. apply in_or_app. right. apply filter_In. split; auto. unfold is_new. cbn [tkey].
    apply andb_true_iff. split.
    - apply negb_true_iff. apply not_true_iff_false. intros X. apply N. unfold is_ignored in X. apply existsb_exists in X as (x & Ix & X).
      apply String.eqb_eq in X. subst x. unfold ignored. cbn in Ix. intuition.
    - apply negb_true_iff. apply not_true_iff_false. intros X. apply existsb_exists in X as (u & Iu & X). apply String.eqb_eq in X.
      apply N. rewrite <- X. apply (proj1 (untagged_iff tags) U (tkey u) (tvalue u)). unfold has_tag. now destruct u.
  Qed.
  Lemma merge_ways_untagged ws one l : (one = true -> (List.length l <= 1)%nat) -> forall tags, keys_unique tags -> tagged_unique ws -> untagged tags = true ->
    fold_left (merge_way one ws) l tags =
    match find (other_tags tags) (map (way_tags ws) l) with Some t => tags ++ filter (is_new tags) t | None => tags end.
  Proof.
    intros H1 tags K Kw U. induction l as [|i l IH]; [reflexivity|]. cbn [fold_left map find]. rewrite merge_way_untagged by auto.
    destruct (other_tags tags (way_tags ws i)) eqn:O.
    - destruct l as [|j l]; [reflexivity|]. destruct one; [specialize (H1 eq_refl); cbn in H1; lia|].
      apply merge_ways_tagged. apply more_tagged; auto. unfold other_tags in O. destruct (untagged (way_tags ws i)); [discriminate|reflexivity].
    - apply IH. intros X. specialize (H1 X). cbn in H1. lia.
  Qed.
  Lemma outer_tagged ws (rings : list ring) oc l : (oc <> 1)%nat -> forall tags, untagged tags = false ->
    fold_left (tags_in ws rings oc) l tags = tags.
  Proof.
    intros H1. induction l as [|j l IH]; intros tags U; cbn [fold_left]; auto.
    assert (X : tags_in ws rings oc tags j = tags).
    { unfold tags_in, outer_tags. destruct (nth_error rings j); auto. apply Nat.eqb_neq in H1. rewrite H1. cbn [andb]. now apply merge_ways_tagged. }
    now rewrite X, IH.
  Qed.
  Lemma tags_in_untagged ws (rings : list ring) oc tags j : keys_unique tags -> tagged_unique ws -> untagged tags = true ->
    tags_in ws rings oc tags j =
    match find (other_tags tags) (ring_tags ws rings j) with Some t => tags ++ filter (is_new tags) t | None => tags end.
  Proof.
    intros K Kw U. unfold tags_in, ring_tags, outer_tags. destruct (nth_error rings j) as [r|]; [|reflexivity].
    apply merge_ways_untagged; auto. intros X. apply andb_true_iff in X as [_ X]. apply Nat.eqb_eq in X. lia.
  Qed.
  Lemma find_app {A} (f : A -> bool) l l' : find f (l ++ l') = match find f l with Some x => Some x | None => find f l' end.
  Proof. induction l as [|x l IH]; cbn; auto. destruct (f x); auto. Qed.
  Lemma outer_untagged ws (rings : list ring) oc l : (oc = 1 -> List.length l <= 1)%nat -> forall tags, keys_unique tags -> tagged_unique ws -> untagged tags = true ->
    fold_left (tags_in ws rings oc) l tags =
    match find (other_tags tags) (List.concat (map (ring_tags ws rings) l)) with Some t => tags ++ filter (is_new tags) t | None => tags end.
  Proof.
    intros H1 tags K Kw U. induction l as [|j l IH]; [reflexivity|]. cbn [fold_left map List.concat]. rewrite tags_in_untagged, find_app by auto.
    destruct (find (other_tags tags) (ring_tags ws rings j)) as [t|] eqn:F.
    - destruct l as [|j' l]; [reflexivity|]. apply outer_tagged; [intros X; specialize (H1 X); cbn in H1; lia|].
      apply more_tagged; auto. apply find_some in F as [_ O]. unfold other_tags in O. destruct (untagged t); [discriminate|reflexivity].
    - apply IH. intros X. specialize (H1 X). cbn in H1. lia.
  Qed.
  Lemma outer_area_tags ws (rings : list ring) l rel : keys_unique rel -> tagged_unique ws -> (forall j, In j l -> (j < List.length rings)%nat) ->
    fold_left (tags_in ws rings (List.length l)) l rel = area_tags rel (map (ring_tags ws rings) l).
  Proof.
    intros K Kw B. unfold area_tags. destruct (untagged rel) eqn:U; [apply outer_untagged; auto; lia|].
    destruct l as [|j [|j' l]]; [reflexivity| |].
    2: { rewrite outer_tagged; [|cbn; lia|exact U]. cbn [map]. destruct (ring_tags ws rings j) as [|x [|]]; reflexivity. }
    cbn [fold_left map List.length]. unfold tags_in, ring_tags, outer_tags. specialize (B j (or_introl eq_refl)).
    destruct (nth_error rings j) as [r|] eqn:E; [|apply nth_error_None in E; lia].
    destruct (rg_ways r) as [|i [|i' l]] eqn:Ew.
    - reflexivity.
    - cbn [map fold_left List.length Nat.eqb andb]. unfold merge_way. rewrite U. fold (way_tags ws i). unfold other_tags.
      destruct (untagged (way_tags ws i)); [reflexivity|]. destruct (same_tags rel (way_tags ws i)); [reflexivity|]. cbn [negb andb].
      apply merge_tags_spec; auto.
    - cbn [map List.length Nat.eqb andb]. now apply merge_ways_tagged.
  Qed.

  Lemma build_exact r ms W ws rings : sorts srt -> Forall way_or_missing ms ->
    in_i64b (2 * o_id (r_attrs r)) = true -> in_i64b (2 * o_id (r_attrs r) + Z.sgn (o_id (r_attrs r))) = true ->
    (forall w, In w (map way_of W) -> in_i64b (2 * o_id (w_attrs w)) = true) ->
    keys_unique (o_tags (r_attrs r)) -> (forall w, In w (map way_of W) -> keys_unique (o_tags (w_attrs w))) ->
    map way_of W = (if rep then first_by_id [] (usable ms) else usable ms) ->
    make_rings mkring srt closer rep (map wi_new W) = Ok (ws, rings) ->
    let con := ring_matrix contains rings in let n := List.length rings in
    proper_nesting con -> uncrossed con -> (forall j, (j < n)%nat -> (depth con n j <= 2)%nat) \/ outside_in con n ->
    exists xs, Forall (own_area (map way_of W)) xs /\
      ((exists a ps, bld r ms = Ok (xs ++ [a]) /\ relation_area r (map way_of W) a /\
          map (shape touching polygon rings con) (outer_rings con n) = map Some ps /\ multipolygon ps = true /\
          o_tags a = area_tags (o_tags (r_attrs r)) (map (ring_tags ws rings) (outer_rings con n))) \/
       (bld r ms = Ok xs /\ forall ps, map (shape touching polygon rings con) (outer_rings con n) = map Some ps -> multipolygon ps = false)).
  Proof.
    intros Hs Hm H1 H2 Hid Kr Kw EW E con n Pn Un Hex.
    destruct (build_core mkring srt closer rep contains touching polygon multipolygon r ms W ws rings Hm H1 H2 Hid EW E) as (xs & Rx & F & H). cbn zeta in Rx, H.
    exists xs. split; auto. fold con n in Rx, H.
    assert (Kws : tagged_unique ws).
    { destruct (make_rings_ways mkring srt closer rep W ws rings E) as (V & Hws & HV). intros i. unfold way_tags.
      destruct (nth_error ws i) as [w|] eqn:Ei; [|constructor]. apply nth_error_ways in Ei. rewrite Hws in Ei.
      apply nth_error_In, in_app_iff in Ei as [I|I]; [|rewrite HV by auto; constructor]. apply (Kw (way_of (wi_way w))). now apply in_map. }
    assert (Inn : forall i, (i < n)%nat -> fst (nesting con n) i = holes con n i) by (now apply inner_holes).
    assert (Sh : forall j, In j (outer_rings con n) -> shape_in rings (fst (nesting con n)) j = shape touching polygon rings con j).
    { intros j Ij. unfold outer_rings in Ij. apply filter_In in Ij as [Ij _]. apply in_seq in Ij. unfold shape_in, shape. destruct (nth_error rings j); auto.
      rewrite Inn by lia. fold n. now rewrite some_list_flat. }
    assert (Top : outer_rings con n <> []).
    { assert (Lr : (0 < n)%nat).
      { unfold n. destruct rings; [|cbn; lia]. exfalso. destruct (make_rings_spec mkring srt closer rep W Hs) as [(R' & _)|(V & ws' & rings' & _ & _ & _ & _ & _ & R')]; cbn zeta in R'; rewrite E in R'; [discriminate|].
        destruct rings'; discriminate. }
      destruct (top_ring _ _ Pn Lr) as (j & Lj & Dj). intros X. assert (I : In j (outer_rings con n)); [|rewrite X in I; destruct I].
      unfold outer_rings. apply filter_In. split; [apply in_seq; lia|]. now rewrite Dj. }
    assert (Mp : (exists ps, map (shape touching polygon rings con) (outer_rings con n) = map Some ps /\ multipolygon ps = true /\
        build_multipolygon touching polygon multipolygon ws rings (fst (nesting con n)) (snd (nesting con n)) (o_tags (r_attrs r)) =
          Ok (area_tags (o_tags (r_attrs r)) (map (ring_tags ws rings) (outer_rings con n)))) \/
      ((forall ps, map (shape touching polygon rings con) (outer_rings con n) = map Some ps -> multipolygon ps = false) /\
       exists e, is_build_error e = true /\ build_multipolygon touching polygon multipolygon ws rings (fst (nesting con n)) (snd (nesting con n)) (o_tags (r_attrs r)) = Throw e)).
    { rewrite <- (map_ext_in _ _ _ Sh). unfold build_multipolygon. fold n. rewrite (tops_outer con n Pn).
      destruct (outer_loop_exact ws rings (fst (nesting con n)) (snd (nesting con n)) (List.length (outer_rings con n))) with
        (is_ := seq 0 n) (geo := map (fun r => Some (rg_geom r)) rings) (tags := o_tags (r_attrs r)) as [(ps & E1 & E2)|(E1 & E2)].
      - intros i j Lj. now apply nesting_disjoint.
      - intros i Li. rewrite Inn by auto. apply NoDup_filter, seq_NoDup.
      - intros i j Li. rewrite Inn by auto. intros I. apply filter_In in I as [I _]. apply in_seq in I. fold n. lia.
      - intros i i' j Li Li'. rewrite !Inn by auto. intros A B. now apply (holes_disjoint con n i i' j Un).
      - apply seq_NoDup.
      - apply map_length.
      - intros i Ii. apply in_seq in Ii. fold n. lia.
      - intros i Ii _. split; [|intros k _]; rewrite nth_error_map; reflexivity.
      - cbn zeta in E1. rewrite (tops_outer con n Pn) in E1, E2. rewrite E2. cbn [obind].
        assert (Np : ps <> []) by (intros ->; destruct (outer_rings con n); [congruence|discriminate]).
        destruct ps as [|p ps]; [congruence|]. destruct (multipolygon (p :: ps)) eqn:Em.
        + left. exists (p :: ps). split; [exact E1|]. split; auto. f_equal. apply outer_area_tags; auto.
          intros j Ij. unfold outer_rings in Ij. apply filter_In in Ij as [Ij _]. apply in_seq in Ij. fold n. lia.
        + right. split; [|exists EInvalidMultiPolygon; auto]. intros ps' X. rewrite E1 in X. assert (p :: ps = ps') as <-; [|exact Em].
          clear - X. revert ps' X. generalize (p :: ps) as l. induction l as [|x l IH]; intros [|y l'] X; try discriminate; auto.
          cbn in X. injection X as -> X. f_equal. auto.
      - cbn zeta in E1. rewrite (tops_outer con n Pn) in E1. rewrite E2. right. split; [intros ps X; now apply E1 in X|]. exists EInvalidRing. auto. }
    destruct Mp as [(ps & E1 & E2 & E3)|(E1 & e & _ & E3)].
    - left. destruct H as [(_ & e & R)|(a & R & A)]; [congruence|]. exists a, ps. split; auto. split; auto. split; auto. split; auto.
      revert R. unfold build. rewrite rel_id_ok by auto. cbn [obind]. rewrite (assemble_W rep ms W Hm EW). cbn [obind]. rewrite E.
      rewrite (surjective_pairing (nesting _ _)). fold con n. rewrite Rx. cbn [obind]. rewrite E3. intros R. injection R as R. apply app_inj_tail in R as [_ <-]. reflexivity.
    - right. split; auto. destruct H as [(R & _)|(a & R & A)]; auto. revert R.
      unfold build. rewrite rel_id_ok by auto. cbn [obind]. rewrite (assemble_W rep ms W Hm EW). cbn [obind]. rewrite E.
      rewrite (surjective_pairing (nesting _ _)). fold con n. rewrite Rx. cbn [obind]. rewrite E3. intros R. destruct (is_build_error e); [|discriminate].
      injection R as R. apply (f_equal (@List.length _)) in R. rewrite app_length in R. cbn in R. lia.
  Qed.
End Build.
