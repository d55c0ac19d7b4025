(** Proofs about Model/Builder.v: which areas a build returns. *)
From Verif Require Import Base.Prelude Model.Osm Model.Handler Model.Assembler Model.Builder
  Spec.BuilderSpec Proofs.AssemblerProofs Proofs.BuilderProofs Proofs.Builder2Proofs Proofs.Builder3Proofs
  Proofs.Builder4Proofs Proofs.Builder5Proofs Proofs.Builder6Proofs.

Section Build.
  Context {G P : Type}.
  Variable mkring : list step -> option G.
  Variable srt : list way_node -> list way_node.
  Variable closer : way_node -> way_node -> way_node -> bool.
  Variable rep : bool.
  Variable contains : G -> G -> bool.
  Variable touching : list (option G) -> list (option G).
  Variable polygon : G -> list G -> option P.
  Variable multipolygon : list P -> bool.
  Notation ring := (@ring G).
  Notation bld r ms := (build mkring srt closer rep contains touching polygon multipolygon r ms).

  (** some ring is not in any other *)
  Lemma top_ring con n : proper_nesting con -> (0 < n)%nat -> exists j, (j < n)%nat /\ depth con n j = 0%nat.
  Proof.
    intros [Asym Tr] Ln.
    (* a ring with the least depth *)
    assert (Ex : forall k, (exists j, (j < n)%nat /\ (depth con n j <= k)%nat) -> exists j, (j < n)%nat /\ depth con n j = 0%nat).
    { induction k as [|k IH]; intros (j & Lj & D); [exists j; split; auto; lia|].
      destruct (Nat.eq_dec (depth con n j) 0) as [Z|Nz]; [exists j; auto|]. apply IH.
      unfold depth in Nz. destruct (filter (fun i => inside con i j) (seq 0 n)) as [|i l] eqn:F; [cbn in Nz; lia|].
      assert (I : In i (filter (fun i => inside con i j) (seq 0 n))) by (rewrite F; now left).
      apply filter_In in I as [I1 I2]. apply in_seq in I1. exists i. split; [lia|].
      enough (depth con n i < depth con n j)%nat by lia. unfold depth.
      assert (Sub : forall x, In x (filter (fun x => inside con x i) (seq 0 n)) -> In x (filter (fun x => inside con x j) (seq 0 n)) /\ x <> i).
      { intros x Hx. apply filter_In in Hx as [X1 X2]. unfold inside in X2, I2 |- *. apply andb_true_iff in X2 as [X2 X3], I2 as [I2 I3].
        apply negb_true_iff, Nat.eqb_neq in X2, I2. split; [|auto]. apply filter_In. split; auto. apply andb_true_iff. split; [|eauto].
        apply negb_true_iff, Nat.eqb_neq. intros ->. rewrite (Asym j i) in I3; auto; discriminate. }
      assert (Nd : NoDup (i :: filter (fun x => inside con x i) (seq 0 n))).
      { constructor; [intros X; now apply Sub in X|]. apply NoDup_filter, seq_NoDup. }
      apply (NoDup_incl_length) with (l' := filter (fun x => inside con x j) (seq 0 n)) in Nd; [cbn in Nd; lia|].
      intros x [<-|X]; [apply filter_In; split; auto; apply in_seq; lia|now apply Sub]. }
    apply (Ex (depth con n 0%nat)). exists 0%nat. split; auto.
  Qed.

  Lemma outer_loop_polys ws (rings : list ring) inner container oc :
    (forall g hs, polygon g hs <> None) ->
    (forall i j, (j < List.length rings)%nat -> container i = None -> ~ In i (inner j)) ->
    forall is_ geo tags, (forall i, In i is_ -> container i = None -> nth_error rings i <> None -> exists g, nth_error geo i = Some (Some g)) ->
    exists ps tags', outer_loop touching polygon ws rings inner container oc is_ geo tags = Ok (ps, tags') /\
      ((exists i, In i is_ /\ container i = None /\ nth_error rings i <> None) -> ps <> []).
  Proof.
    intros Hp Hin. induction is_ as [|i is_ IH]; intros geo tags Hg; cbn [outer_loop]; [exists [], tags; split; auto; intros (i & [] & _)|].
    assert (Rest : forall geo' tags', (forall k, container k = None -> nth_error geo' k = nth_error geo k) ->
      exists ps tags2, outer_loop touching polygon ws rings inner container oc is_ geo' tags' = Ok (ps, tags2) /\
       ((exists i, In i is_ /\ container i = None /\ nth_error rings i <> None) -> ps <> [])).
    { intros geo' tags' H. apply IH. intros k I C N. rewrite H by auto. apply Hg; auto. now right. }
    destruct (nth_error rings i) as [r|] eqn:Er.
    2: { destruct (Rest geo tags) as (ps & t2 & R & N); auto. exists ps, t2. split; auto.
         intros (j & [->|I] & C & X); [congruence|]. apply N. eauto. }
    destruct (container i) as [c|] eqn:Ec.
    { destruct (Rest geo tags) as (ps & t2 & R & N); auto. exists ps, t2. split; auto.
         intros (j & [->|I] & C & X); [congruence|]. apply N. eauto. }
    set (holes := match inner i with [] => [] | _ => touching (polygons_of geo (inner i)) end).
    assert (Hw : forall k, container k = None -> nth_error (write_back (inner i) holes geo) k = nth_error geo k) by (intros k Ck; apply write_back_other, Hin; auto; apply nth_error_Some; congruence).
    destruct (Hg i (or_introl eq_refl) Ec ltac:(congruence)) as (g & Eg). rewrite Hw, Eg by auto.
    destruct (polygon g _) as [p|] eqn:Ep; [|exfalso; eapply Hp; eauto].
    destruct (Rest (write_back (inner i) holes geo) (outer_tags oc ws tags r) Hw) as (ps & t2 & R & _). rewrite R. cbn [obind].
    exists (p :: ps), t2. split; auto. discriminate.
  Qed.

  Lemma build_succeeds r ms W ws rings : sorts srt -> Forall way_or_missing ms ->
    in_i64b (2 * o_id (r_attrs r)) = true -> in_i64b (2 * o_id (r_attrs r) + Z.sgn (o_id (r_attrs r))) = true ->
    (forall w, In w (map way_of W) -> in_i64b (2 * o_id (w_attrs w)) = true) ->
    map way_of W = (if rep then first_by_id [] (usable ms) else usable ms) ->
    make_rings mkring srt closer rep (map wi_new W) = Ok (ws, rings) -> proper_nesting (ring_matrix contains rings) ->
    (forall g hs, polygon g hs <> None) -> (forall ps, multipolygon ps = true) ->
    exists xs a, bld r ms = Ok (xs ++ [a]) /\ Forall (own_area (map way_of W)) xs /\ relation_area r (map way_of W) a.
  Proof.
    intros Hs Hm H1 H2 Hid EW E Pn Hp Hmp.
    destruct (build_core mkring srt closer rep contains touching polygon multipolygon r ms W ws rings Hm H1 H2 Hid EW E) as (xs & _ & F & [(_ & e & R)|(a & R & A)]); cbn zeta in *;
      [exfalso|exists xs, a; auto].
    set (nest := nesting (ring_matrix contains rings) (List.length rings)) in *.
    unfold build_multipolygon in R.
    destruct (outer_loop_polys ws rings (fst nest) (snd nest) (List.length (filter (is_outer (snd nest)) (seq 0 (List.length rings)))) Hp) with
        (is_ := seq 0 (List.length rings)) (geo := map (fun r => Some (rg_geom r)) rings) (tags := o_tags (r_attrs r)) as (ps & t & Ro & N).
    { intros x y Ly. apply nesting_disjoint. exact Ly. }
    { intros x _ _ Nx. rewrite nth_error_map. destruct (nth_error rings x) as [r'|]; [|congruence]. cbn. eauto. }
    rewrite Ro in R. cbn [obind] in R. rewrite Hmp in R. destruct ps; [|discriminate]. apply N; auto.
    assert (Lr : (0 < List.length rings)%nat).
    { destruct rings; [|cbn; lia]. exfalso. destruct (make_rings_spec mkring srt closer rep W Hs) as [(R' & _)|(V & ws' & rings' & _ & _ & _ & _ & _ & R')]; cbn zeta in R'; rewrite E in R'; [discriminate|].
      destruct rings'; discriminate. }
    destruct (top_ring _ _ Pn Lr) as (j & Lj & Dj). exists j. split; [apply in_seq; lia|]. split.
    - pose proof (nesting_holes (ring_matrix contains rings) Pn (List.length rings) j Lj) as X. rewrite Dj in X. fold nest in X.
      destruct (snd nest j); auto. destruct X as [X _]. specialize (X ltac:(congruence)). discriminate.
    - apply nth_error_Some. exact Lj.
  Qed.

  Lemma extra_areas_map ws l xs : extra_areas ws l = Ok xs -> forall a, In a xs <-> exists i w, In i l /\ nth_error ws i = Some w /\ a = way_area (wi_way w).
  Proof.
    revert xs. induction l as [|i l IH]; intros xs; cbn [extra_areas].
    - intros X. injection X as <-. intros a. split; [intros []|intros (i & w & [] & _)].
    - destruct (nth_error ws i) as [w|] eqn:Ew; [|discriminate]. cbn zeta. unfold area_id_of_way.
      destruct (in_i64b _) eqn:B; cbn [obind]; try discriminate.
      destruct (extra_areas ws l) as [y| | |]; try discriminate. cbn [obind]. intros X. injection X as <-. intros a. specialize (IH y eq_refl a).
      cbn [In]. rewrite IH. split.
      + intros [<-|(j & w' & H)]; [exists i, w; auto|exists j, w'; intuition].
      + intros (j & w' & [<-|I] & E & ->); [left; rewrite Ew in E; injection E as <-; reflexivity|right; eauto].
  Qed.
  Lemma way_tags_get ws i w : nth_error ws i = Some w -> way_tags ws i = o_tags (b_attrs (wi_way w)).
  Proof. unfold way_tags. now intros ->. Qed.
  Lemma one_way_inner_iff ws (rings : list ring) tags c rg i w rc : J mkring ws rings -> rg_ways rg = [i] -> nth_error ws i = Some w -> nth_error rings c = Some rc ->
    (one_way_inner ws rings tags (Some c) rg = Some i <-> own_tags ws rings tags c (wi_way w)).
  Proof.
    intros HJ E Ew Ec. unfold one_way_inner, own_tags. rewrite E, Ec, (way_tags_get _ _ _ Ew), <- untagged_false.
    destruct (untagged _) eqn:U; [split; [discriminate|intros (X & _); discriminate]|].
    destruct (same_tags _ tags); [split; [discriminate|intros (_ & X & _); discriminate]|].
    assert (Lone : forall wc, lone_ring ws rings c wc <-> exists j wj, rg_ways rc = [j] /\ nth_error ws j = Some wj /\ wi_way wj = wc).
    { intros wc. split.
      - intros (rg' & j & wj & X1 & X2 & X3 & X4). rewrite Ec in X1. injection X1 as <-. eauto.
      - intros (j & wj & X2 & X3 & X4). exists rc, j, wj. auto. }
    destruct (rg_ways rc) as [|j [|j' l]] eqn:Er.
    - split; auto. intros _. split; auto. split; auto. intros wc X. apply Lone in X as (j & wj & X & _). discriminate.
    - assert (exists wj, nth_error ws j = Some wj) as (wj & Ej).
      { assert (X : taken rings j). { unfold taken. apply in_concat. exists [j]. split; [|now left]. rewrite <- Er. apply in_map. eapply nth_error_In; eauto. }
        pose proof (J_bound mkring _ _ j HJ X) as B. destruct (nth_error ws j) eqn:Ej; [eauto|]. apply nth_error_None in Ej. lia. }
      rewrite (way_tags_get _ _ _ Ej). split.
      + destruct (same_tags _ (o_tags (b_attrs (wi_way wj)))) eqn:S1; [discriminate|]. intros _. split; auto. split; auto. intros wc X.
        apply Lone in X as (j2 & wj2 & X1 & X2 & <-). injection X1 as <-. rewrite Ej in X2. injection X2 as <-. exact S1.
      + intros (_ & _ & X). rewrite X; auto. apply Lone. eauto.
    - split; auto. intros _. split; auto. split; auto. intros wc X. apply Lone in X as (j2 & wj & X & _). discriminate.
  Qed.
  Lemma one_way_inner_some ws (rings : list ring) tags c rg k : one_way_inner ws rings tags c rg = Some k -> rg_ways rg = [k].
  Proof.
    unfold one_way_inner. destruct (rg_ways rg) as [|i [|]]; try discriminate. destruct (untagged _); [discriminate|]. destruct (same_tags _ _); [discriminate|].
    destruct c as [c|]; [|congruence]. destruct (nth_error rings c) as [rc|]; [|congruence]. destruct (rg_ways rc) as [|j [|]]; try congruence.
    destruct (same_tags _ _); congruence.
  Qed.
  (** which ways become areas of their own *)
  Lemma build_own r ms W ws rings : sorts srt -> Forall way_or_missing ms ->
    in_i64b (2 * o_id (r_attrs r)) = true -> in_i64b (2 * o_id (r_attrs r) + Z.sgn (o_id (r_attrs r))) = true ->
    (forall w, In w (map way_of W) -> in_i64b (2 * o_id (w_attrs w)) = true) ->
    map way_of W = (if rep then first_by_id [] (usable ms) else usable ms) ->
    make_rings mkring srt closer rep (map wi_new W) = Ok (ws, rings) ->
    let con := ring_matrix contains rings in let n := List.length rings in
    proper_nesting con -> (forall j, (j < n)%nat -> (depth con n j <= 2)%nat) \/ outside_in con n ->
    exists xs, (bld r ms = Ok xs \/ exists a, bld r ms = Ok (xs ++ [a]) /\ relation_area r (map way_of W) a) /\
      (forall a, In a xs -> exists j c w, direct con n c j /\ Nat.odd (depth con n j) = true /\ lone_ring ws rings j w /\
                                         own_tags ws rings (o_tags (r_attrs r)) c w /\ a = way_area w) /\
      (forall j w, Nat.odd (depth con n j) = true -> lone_ring ws rings j w ->
         (forall c, (c < n)%nat -> direct con n c j -> own_tags ws rings (o_tags (r_attrs r)) c w) -> In (way_area w) xs).
  Proof.
    intros Hs Hm H1 H2 Hid EW E con n Pn Hex.
    destruct (build_core mkring srt closer rep contains touching polygon multipolygon r ms W ws rings Hm H1 H2 Hid EW E) as (xs & Rx & _ & H). cbn zeta in *.
    exists xs. split; [destruct H as [[H _]|H]; auto|]. clear H.
    assert (HJ : J mkring ws rings).
    { destruct (make_rings_spec mkring srt closer rep W Hs) as [(R' & _)|(V & ws' & rings' & _ & _ & _ & HJ & _ & R')]; cbn zeta in R'; rewrite E in R'; [discriminate|].
      destruct rings'; [discriminate|]. injection R' as -> ->. exact HJ. }
    fold con n in Rx. pose proof (extra_areas_map _ _ _ Rx) as Mx. clear Rx.
    assert (Cont : forall j c, (j < n)%nat -> snd (nesting con n) j = Some c -> (c < n)%nat /\ direct con n c j /\ Nat.odd (depth con n j) = true).
    { intros j c Lj Ec. pose proof (nesting_container con Pn n _ _ Ec Lj) as I. pose proof (nesting_inner con Pn n _ _ I) as (Lc & _).
      split; auto. now apply (nesting_exact con Pn n Hex). }
    split.
    - intros a Ia. apply Mx in Ia as (i & w & Ii & Ew & ->). unfold extra_ways in Ii. apply in_flat_map in Ii as (j & Ij & Ii).
      apply in_seq in Ij. destruct (nth_error rings j) as [rg|] eqn:Er; [|destruct Ii]. destruct (snd (nesting con n) j) as [c|] eqn:Ec; [|destruct Ii].
      destruct (one_way_inner ws rings (o_tags (r_attrs r)) (Some c) rg) as [k|] eqn:Ek; [|destruct Ii]. destruct Ii as [->|[]].
      destruct (Cont j c ltac:(unfold n; lia) Ec) as (Lc & D & O). pose proof (one_way_inner_some _ _ _ _ _ _ Ek) as Ew1.
      destruct (nth_error rings c) as [rc|] eqn:Erc; [|apply nth_error_None in Erc; unfold n in Lc; lia].
      exists j, c, (wi_way w). split; auto. split; auto. split; [exists rg, i, w; auto|]. split; auto.
      now apply (one_way_inner_iff ws rings (o_tags (r_attrs r)) c rg i w rc).
    - intros j w O (rg & i & wi & Er & Ew1 & Ewi & <-) Hc. apply Mx. exists i, wi. split; auto.
      assert (Lj : (j < n)%nat) by (apply nth_error_Some; congruence).
      destruct (snd (nesting con n) j) as [c|] eqn:Ec; [|apply (nesting_holes con Pn n j Lj) in O; congruence].
      destruct (Cont j c Lj Ec) as (Lc & D & _). unfold extra_ways. apply in_flat_map. exists j. split; [apply in_seq; unfold n in Lj; lia|].
      rewrite Er, Ec.
      destruct (nth_error rings c) as [rc|] eqn:Erc; [|apply nth_error_None in Erc; unfold n in Lc; lia].
      assert (X : one_way_inner ws rings (o_tags (r_attrs r)) (Some c) rg = Some i) by (apply (one_way_inner_iff ws rings _ c rg i wi rc); auto).
      rewrite X. now left.
  Qed.
End Build.
