(** Proofs about areas and geometries for other libraries. *)
From Verif Require Import Base.Prelude Model.Osm Model.Float Model.Geom Model.Area Spec.GeomSpec Spec.AreaSpec.

(* ---- points ---- *)
Lemma push_all_spec : forall ns, push_all ns = map coord_of (positions ns).
Proof.
  intros ns. unfold push_all, positions. rewrite map_map.
  assert (H : forall acc, fold_left (fun c n => c ++ [geos_coordinate (wn_pos n)]) ns acc = acc ++ map (fun x => coord_of (wn_pos x)) ns).
  { induction ns as [|n r IH]; intros acc; cbn [fold_left map].
    - now rewrite app_nil_r.
    - rewrite IH, <- app_assoc. reflexivity. }
  apply (H []).
Qed.
Lemma collect_spec : forall g, collect g = points_of g.
Proof. intros [ns r]. unfold collect, points_of. cbn [fw_reverse fw_nodes]. destruct r; apply push_all_spec. Qed.
Theorem geos_line_thm : forall lv g, geos_line lv g = if lv (points_of g) then Ok (GLine (points_of g)) else Throw EGeos.
Proof. intros. unfold geos_line. now rewrite collect_spec. Qed.
Theorem geos_polygon_thm : forall rv g, geos_polygon rv g = if rv (points_of g) then Ok (GPolygon (points_of g) []) else Throw EGeos.
Proof. intros. unfold geos_polygon. now rewrite collect_spec. Qed.
Theorem ogr_line_thm : forall g, ogr_line g = OgrLine (points_of g) /\ ogr_polygon g = OgrPolygon [points_of g].
Proof. intros. unfold ogr_line, ogr_polygon. now rewrite collect_spec. Qed.

Lemma set_points_spec : forall cs pre l, List.length l = List.length cs ->
  set_points (List.length pre) cs (pre ++ l) = pre ++ cs.
Proof.
  induction cs as [|c r IH]; intros pre l H; destruct l as [|x l]; try discriminate; cbn [set_points].
  - reflexivity.
  - assert (E : set_point (pre ++ x :: l) (List.length pre) c = (pre ++ [c]) ++ l).
    { rewrite <- app_assoc. clear. induction pre; cbn [app List.length set_point]; [reflexivity|]. now rewrite IHpre. }
    rewrite E. replace (S (List.length pre)) with (List.length (pre ++ [c])) by (rewrite app_length; cbn; lia).
    rewrite IH by (cbn in H; lia). now rewrite <- app_assoc.
Qed.
Lemma add_ring_spec : forall p cs, add_ring p cs = p ++ [cs].
Proof.
  intros. unfold add_ring. pose proof (set_points_spec cs [] (repeat origin (List.length cs)) (repeat_length _ _)) as H.
  cbn [List.length app] in H. now rewrite H.
Qed.
Lemma make_polygon_spec : forall g, is_polygon g -> make_polygon g = Ok (rings_of g).
Proof.
  intros g (e & h & ->). unfold make_polygon, rings_of. f_equal.
  assert (H : forall acc, fold_left add_ring h acc = acc ++ h).
  { induction h as [|c r IH]; intros acc; cbn [fold_left]; [now rewrite app_nil_r|]. rewrite IH, add_ring_spec, <- app_assoc. reflexivity. }
  rewrite H, add_ring_spec. reflexivity.
Qed.
Lemma ogr_polygons_spec : forall accept gs acc, Forall is_polygon gs ->
  ogr_polygons accept gs acc = if forallb (fun g => accept (rings_of g)) gs then Ok (OgrMulti (acc ++ map rings_of gs)) else Throw EIllegalGeometry.
Proof.
  induction gs as [|g r IH]; intros acc H; cbn [ogr_polygons forallb map].
  - now rewrite app_nil_r.
  - inversion H; subst. rewrite make_polygon_spec by assumption. cbn [obind].
    destruct (accept (rings_of g)); cbn [andb]; [|reflexivity]. rewrite IH by assumption. now rewrite <- app_assoc.
Qed.
Theorem ogr_multipolygon_thm : forall accept gs, Forall is_polygon gs ->
  ogr_multipolygon accept (GMulti gs) =
    if forallb (fun g => accept (rings_of g)) gs then Ok (OgrMulti (map rings_of gs)) else Throw EIllegalGeometry.
Proof. intros. unfold ogr_multipolygon. now rewrite ogr_polygons_spec. Qed.

(* ---- areas ---- *)
Lemma way_shape_spec : forall valid ns,
  (let! p := polygon_new ns false in let! q := geos_polygon valid p in Ok (GMulti [q])) = way_shape valid ns.
Proof.
  intros valid [|n r]; [reflexivity|].
  unfold polygon_new, way_shape, is_closed. cbn [obind].
  replace (last (n :: r) n) with (last r n) by (destruct r; reflexivity).
  destruct (wn_ref n =? wn_ref (last r n)); [|reflexivity]. cbn [obind].
  rewrite geos_polygon_thm. unfold points_of, positions. cbn [fw_reverse fw_nodes].
  rewrite map_map. destruct (valid _); reflexivity.
Qed.

Section Valid.
  Variable valid : list coord -> bool.

  (** the value of an area *)
  Definition abs_area (h : heap) (l : life area) : life varea :=
    match l with
    | Unborn => Unborn
    | Dead => Dead
    | Alive a => Alive (mkV (a_attrs a) (a_nodes a) (match a_geom a with Some p => h_cell h p | None => None end))
    end.
  Record inv (w : world) : Prop := mkInv {
    inv_live : forall x a p, w_area w x = Alive a -> a_geom a = Some p -> exists g, h_cell (w_heap w) p = Some g;
    inv_one : forall x y a b p, w_area w x = Alive a -> w_area w y = Alive b -> a_geom a = Some p -> a_geom b = Some p -> x = y;
    inv_next : forall p, (h_next (w_heap w) <= p)%nat -> h_cell (w_heap w) p = None }.
  Definition repr (w : world) (v : vworld) : Prop :=
    (forall x, abs_area (w_heap w) (w_area w x) = v_area v x) /\ (forall x, w_view w x = v_view v x).

  Lemma vput_put : forall A (f : nat -> A) x v y, put f x v y = vput f x v y.
  Proof. intros. unfold put, vput. now rewrite Nat.eqb_sym. Qed.
  Lemma put_eq : forall A (f : nat -> A) x v, put f x v x = v.
  Proof. intros. unfold put. now rewrite Nat.eqb_refl. Qed.
  Lemma put_ne : forall A (f : nat -> A) x v y, y <> x -> put f x v y = f y.
  Proof. intros. unfold put. now rewrite (proj2 (Nat.eqb_neq y x)). Qed.

  Lemma owned_lt : forall w x a p, inv w -> w_area w x = Alive a -> a_geom a = Some p -> (p < h_next (w_heap w))%nat.
  Proof.
    intros w x a p I H G. destruct (inv_live w I _ _ _ H G) as (g & E).
    destruct (Nat.lt_ge_cases p (h_next (w_heap w))) as [L|L]; [exact L|].
    rewrite (inv_next w I _ L) in E. discriminate.
  Qed.

  (** putting an area whose geometry is its own or new *)
  Definition fresh_or_own (w : world) (x : nat) (g : option nat) : Prop :=
    g = None \/ g = Some (h_next (w_heap w)) \/ exists a, w_area w x = Alive a /\ a_geom a = g.

  (** the heap may have got one new cell *)
  Definition grown (h h' : heap) : Prop :=
    h' = h \/ exists g, h' = snd (alloc g h).
  Lemma grown_old : forall h h' p, grown h h' -> (p < h_next h)%nat -> h_cell h' p = h_cell h p.
  Proof.
    intros h h' p [-> |(g & ->)] L; [reflexivity|]. cbn [alloc snd h_cell].
    rewrite (proj2 (Nat.eqb_neq p (h_next h))) by lia. reflexivity.
  Qed.
  Lemma grown_next : forall h h', grown h h' -> (forall p, (h_next h <= p)%nat -> h_cell h p = None) ->
    forall p, (h_next h' <= p)%nat -> h_cell h' p = None.
  Proof.
    intros h h' [-> |(g & ->)] H p L; [now apply H|]. cbn [alloc snd h_cell h_next] in *.
    rewrite (proj2 (Nat.eqb_neq p (h_next h))) by lia. apply H. lia.
  Qed.

  (** replacing or adding one area *)
  Lemma put_area : forall w v x a h' va views views',
    inv w -> repr w v -> grown (w_heap w) h' ->
    (a_geom a = None \/ (a_geom a = Some (h_next (w_heap w)) /\ h_cell h' (h_next (w_heap w)) <> None)
     \/ exists b, w_area w x = Alive b /\ a_geom b = a_geom a) ->
    abs_area h' (Alive a) = Alive va ->
    (forall y, views y = views' y) ->
    inv (mkWorld h' (put (w_area w) x (Alive a)) views) /\
    repr (mkWorld h' (put (w_area w) x (Alive a)) views) (mkVW (vput (v_area v) x (Alive va)) views').
  Proof.
    intros w v x a h' va views views' I [R1 R2] G C A V.
    assert (OLD : forall y b p, w_area w y = Alive b -> a_geom b = Some p -> (p < h_next (w_heap w))%nat) by (intros; eapply owned_lt; eauto).
    assert (LIVE : forall y b p, w_area w y = Alive b -> a_geom b = Some p -> exists g, h_cell h' p = Some g).
    { intros y b p H E. rewrite (grown_old _ _ p G) by eauto. eapply inv_live; eauto. }
    split; [constructor|split]; cbn [w_heap w_area w_view v_area v_view].
    - intros y b p H E. destruct (Nat.eq_dec y x) as [-> |N].
      + rewrite put_eq in H. injection H as <-. destruct C as [C|[[C D]|(b & Hb & C)]].
        * congruence.
        * assert (p = h_next (w_heap w)) by congruence. subst p. destruct (h_cell h' _); [eauto|congruence].
        * eapply LIVE; eauto. congruence.
      + rewrite put_ne in H by exact N. eauto.
    - intros y z b c p Hy Hz Ey Ez.
      destruct (Nat.eq_dec y x) as [-> |Ny]; destruct (Nat.eq_dec z x) as [-> |Nz]; [reflexivity| | |].
      + rewrite put_eq in Hy. injection Hy as <-. rewrite put_ne in Hz by exact Nz.
        destruct C as [C|[[C D]|(d & Hd & C)]].
        * congruence.
        * assert (p = h_next (w_heap w)) by congruence. subst p. pose proof (OLD _ _ _ Hz Ez). lia.
        * eapply inv_one; eauto. congruence.
      + rewrite put_eq in Hz. injection Hz as <-. rewrite put_ne in Hy by exact Ny.
        destruct C as [C|[[C D]|(d & Hd & C)]].
        * congruence.
        * assert (p = h_next (w_heap w)) by congruence. subst p. pose proof (OLD _ _ _ Hy Ey). lia.
        * eapply inv_one; eauto. congruence.
      + rewrite put_ne in Hy by exact Ny. rewrite put_ne in Hz by exact Nz. eapply inv_one; eauto.
    - apply (grown_next _ _ G). apply (inv_next w I).
    - intros y. rewrite <- vput_put. destruct (Nat.eq_dec y x) as [-> |N].
      + rewrite !put_eq. exact A.
      + rewrite !put_ne by exact N. rewrite <- R1. unfold abs_area. destruct (w_area w y) as [|b|] eqn:E; try reflexivity.
        destruct (a_geom b) as [p|] eqn:Gb; [|reflexivity]. rewrite (grown_old _ _ p G) by eauto. reflexivity.
    - exact V.
  Qed.

  Lemma abs_inv : forall h l, (abs_area h l = Unborn <-> l = Unborn) /\ (abs_area h l = Dead <-> l = Dead).
  Proof. intros h [|a|]; cbn; split; split; congruence. Qed.

  Definition agrees (q : option (outcome (world * obs))) (v : option (outcome (vworld * obs))) : Prop :=
    match q, v with
    | None, None => True
    | Some UB, Some UB | Some AssertFail, Some AssertFail => True
    | Some (Ok (w, b)), Some (Ok (v, c)) => b = c /\ inv w /\ repr w v
    | _, _ => False
    end.

  Lemma clone_spec : forall w x b, inv w -> w_area w x = Alive b ->
    match a_geom b with
    | None => clone (a_geom b) (w_heap w) = UB
    | Some p => exists g, h_cell (w_heap w) p = Some g /\ clone (a_geom b) (w_heap w) = Ok (Some (h_next (w_heap w)), snd (alloc g (w_heap w)))
    end.
  Proof.
    intros w x b I H. destruct (a_geom b) as [p|] eqn:E; [|reflexivity].
    destruct (inv_live w I _ _ _ H E) as (g & G). exists g. split; [exact G|]. unfold clone, deref. rewrite G. reflexivity.
  Qed.
  Lemma alloc_new : forall g h, h_cell (snd (alloc g h)) (h_next h) = Some g.
  Proof. intros. cbn [alloc snd h_cell]. now rewrite Nat.eqb_refl. Qed.
  Lemma attrs_eta : forall a, mkAttrs (o_id a) (o_version a) (o_changeset a) (o_timestamp a) (o_endtime a) (o_uid a) (o_user a) (o_visible a) (o_tags a) = a.
  Proof. now intros []. Qed.
  Lemma fits_spec : forall z, in_i64b z = fits z.
  Proof. intros. unfold in_i64b, fits, int64_min, int64_max. change (2 ^ 63) with 9223372036854775808. lia. Qed.
  Lemma way_id_spec : forall i, area_id_of_way i = if fits (2 * i) then Ok (2 * i) else UB.
  Proof. intros. unfold area_id_of_way. cbv zeta. now rewrite fits_spec, Z.mul_comm. Qed.
  Lemma sgn_spec : forall i, sgn i = Z.sgn i.
  Proof. intros. unfold sgn. destruct (Z.ltb_spec 0 i); destruct (Z.ltb_spec i 0); cbn [Z.b2z]; lia. Qed.
  Lemma rel_id_spec : forall i, area_id_of_relation i = if fits (2 * i + Z.sgn i) then Ok (2 * i + Z.sgn i) else UB.
  Proof.
    intros. unfold area_id_of_relation. cbv zeta. rewrite sgn_spec, Z.mul_comm, !fits_spec.
    destruct (fits (2 * i)) eqn:A; [reflexivity|]. destruct (fits (2 * i + Z.sgn i)) eqn:B; [|reflexivity].
    exfalso. revert A B. unfold fits. change (2 ^ 63) with 9223372036854775808. lia.
  Qed.

  Lemma step_agrees : forall w v o, inv w -> repr w v -> agrees (step valid w o) (vstep valid v o).
  Proof.
    intros w v o I R. pose proof R as [R1 R2].
    destruct o as [x wy|x r|x y|x y|x g|x ts|x|u x|u|x]; cbn [step vstep].
    - rewrite <- R1. destruct (w_area w x) as [|a|] eqn:E; cbn [abs_area agrees]; try exact Logic.I.
      unfold area_of_way. rewrite way_id_spec. destruct (fits _); cbn [obind or_thrown agrees]; [|exact Logic.I].
      split; [reflexivity|]. apply put_area; auto; now left.
    - rewrite <- R1. destruct (w_area w x) as [|a|] eqn:E; cbn [abs_area agrees]; try exact Logic.I.
      unfold area_of_relation. rewrite rel_id_spec. destruct (fits _); cbn [obind or_thrown agrees]; [|exact Logic.I].
      split; [reflexivity|]. apply put_area; auto; now left.
    - rewrite <- !R1. destruct (w_area w x) as [|a|] eqn:E; cbn [abs_area]; try exact Logic.I.
      destruct (w_area w y) as [|b|] eqn:F; cbn [abs_area]; try exact Logic.I.
      pose proof (clone_spec w y b I F) as C. cbn [v_shape].
      destruct (a_geom b) as [p|] eqn:G; [|rewrite C; exact Logic.I].
      destruct C as (g & Hg & C). rewrite Hg, C. cbn [or_thrown agrees fst snd]. split; [reflexivity|].
      apply put_area; auto.
      + right. now exists g.
      + right. left. split; [reflexivity|]. rewrite alloc_new. discriminate.
      + cbn [abs_area a_geom a_attrs a_nodes]. now rewrite alloc_new.
    - rewrite <- !R1. destruct (w_area w x) as [|a|] eqn:E; cbn [abs_area]; try exact Logic.I.
      destruct (w_area w y) as [|b|] eqn:F; cbn [abs_area]; try exact Logic.I.
      pose proof (clone_spec w y b I F) as C. cbn [v_shape].
      destruct (a_geom b) as [p|] eqn:G; [|rewrite C; exact Logic.I].
      destruct C as (g & Hg & C). rewrite Hg, C. cbn [or_thrown agrees fst snd]. split; [reflexivity|].
      apply put_area; auto.
      + right. now exists g.
      + right. left. split; [reflexivity|]. rewrite alloc_new. discriminate.
      + cbn [abs_area a_geom a_attrs a_nodes]. rewrite alloc_new. unfold assign_attrs. now rewrite attrs_eta.
    - rewrite <- R1. destruct (w_area w x) as [|a|] eqn:E; cbn [abs_area]; try exact Logic.I.
      destruct g as [g|]; cbn [option_map agrees]; split; try reflexivity.
      + apply put_area; auto.
        * right. now exists (GMulti g).
        * right. left. split; [reflexivity|]. pose proof (alloc_new (GMulti g) (w_heap w)) as N. cbn [alloc snd] in N. rewrite N. discriminate.
        * cbn [abs_area a_geom a_attrs a_nodes v_attrs v_nodes]. pose proof (alloc_new (GMulti g) (w_heap w)) as N. cbn [alloc snd] in N. now rewrite N.
      + apply put_area; auto; now left.
    - rewrite <- R1. destruct (w_area w x) as [|a|] eqn:E; cbn [abs_area agrees]; try exact Logic.I.
      split; [reflexivity|]. apply put_area; auto; [now left|].
      right. right. exists a. now split.
    - rewrite <- R1. destruct (w_area w x) as [|a|] eqn:E; cbn [abs_area agrees]; try exact Logic.I.
      assert (D : exists h', release (a_geom a) (w_heap w) = Ok h' /\ h_next h' = h_next (w_heap w) /\
        forall p, h_cell h' p = if match a_geom a with Some q => Nat.eqb p q | None => false end then None else h_cell (w_heap w) p).
      { unfold release. destruct (a_geom a) as [q|] eqn:G.
        - destruct (inv_live w I _ _ _ E G) as (g & Hg). rewrite Hg. eexists. split; [reflexivity|]. now split.
        - eexists. split; [reflexivity|]. now split. }
      destruct D as (h' & D & N & P). rewrite D. cbn [or_thrown agrees]. split; [reflexivity|].
      assert (K : forall y b p, y <> x -> w_area w y = Alive b -> a_geom b = Some p -> h_cell h' p = h_cell (w_heap w) p).
      { intros y b p Ny Hy Gy. rewrite P. destruct (a_geom a) as [q|] eqn:G; [|reflexivity].
        destruct (Nat.eqb_spec p q) as [-> |Nq]; [|reflexivity]. exfalso. apply Ny. eapply inv_one; eauto. }
      split; [constructor|split]; cbn [w_heap w_area w_view v_area v_view].
      + intros y b p H Gb. destruct (Nat.eq_dec y x) as [-> |Ny]; [rewrite put_eq in H; discriminate|].
        rewrite put_ne in H by exact Ny. rewrite (K y b p) by assumption. eapply inv_live; eauto.
      + intros y z b c p Hy Hz Ey Ez.
        destruct (Nat.eq_dec y x) as [-> |Ny]; [rewrite put_eq in Hy; discriminate|].
        destruct (Nat.eq_dec z x) as [-> |Nz]; [rewrite put_eq in Hz; discriminate|].
        rewrite put_ne in Hy by exact Ny. rewrite put_ne in Hz by exact Nz. eapply inv_one; eauto.
      + intros p L. rewrite P. rewrite (inv_next w I) by (rewrite <- N; exact L). destruct (match a_geom a with Some q => _ | None => _ end); reflexivity.
      + intros y. rewrite <- vput_put. destruct (Nat.eq_dec y x) as [-> |Ny]; [now rewrite !put_eq|].
        rewrite !put_ne by exact Ny. rewrite <- R1. unfold abs_area. destruct (w_area w y) as [|b|] eqn:F; try reflexivity.
        destruct (a_geom b) as [p|] eqn:Gb; [|reflexivity]. now rewrite (K y b p) by assumption.
      + exact R2.
    - rewrite <- R2, <- R1. destruct (w_view w u) as [|y|] eqn:U; cbn [abs_area]; try exact Logic.I.
      destruct (w_area w x) as [|a|] eqn:E; cbn [abs_area]; try exact Logic.I.
      cbn [v_shape v_attrs v_nodes].
      assert (VV : forall z, put (w_view w) u (Alive x) z = vput (v_view v) u (Alive x) z).
      { intros z. rewrite vput_put. unfold vput. destruct (Nat.eqb u z); auto. }
      unfold multipolygon_new. destruct (a_geom a) as [p|] eqn:G.
      + destruct (inv_live w I _ _ _ E G) as (g & Hg). rewrite Hg. cbn [or_thrown agrees fst snd]. split; [reflexivity|].
        destruct (put_area w v x a (w_heap w) (mkV (a_attrs a) (a_nodes a) (Some g)) (put (w_view w) u (Alive x)) (vput (v_view v) u (Alive x)) I R) as [I' [Q1 Q2]]; auto.
        * now left.
        * right. right. exists a. now split.
        * cbn [abs_area]. now rewrite G, Hg.
        * split; [exact I'|]. split; [|exact VV].
          intros z. specialize (Q1 z). cbn [w_heap w_area v_area] in Q1 |- *. rewrite Q1. unfold vput.
          destruct (Nat.eqb_spec x z) as [<- |Nz]; [|reflexivity].
          rewrite <- R1, E. cbn [abs_area]. now rewrite G, Hg.
      + rewrite <- way_shape_spec. destruct (polygon_new (a_nodes a) false) as [p|e| |]; cbn [obind or_thrown agrees]; try exact Logic.I.
        * rewrite geos_polygon_thm. destruct (valid _); cbn [obind or_thrown agrees fst snd].
          -- split; [reflexivity|]. apply put_area; auto.
             ++ right. eexists. reflexivity.
             ++ right. left. split; [reflexivity|]. cbn [alloc snd fst h_cell h_next]. rewrite Nat.eqb_refl. discriminate.
             ++ cbn [abs_area a_geom a_attrs a_nodes alloc snd fst h_cell h_next]. now rewrite Nat.eqb_refl.
          -- split; [reflexivity|]. now split.
        * split; [reflexivity|]. now split.
    - rewrite <- R2. destruct (w_view w u) as [|y|] eqn:U; try exact Logic.I.
      rewrite <- R1. destruct (w_area w y) as [|a|] eqn:E; cbn [abs_area agrees]; try exact Logic.I.
      unfold borrow. cbn [v_shape]. destruct (a_geom a) as [p|] eqn:G; cbn [or_thrown agrees].
      + destruct (inv_live w I _ _ _ E G) as (g & Hg). unfold deref. rewrite Hg. cbn [or_thrown agrees]. split; [reflexivity|]. now split.
      + split; [reflexivity|]. now split.
    - rewrite <- R1. destruct (w_area w x) as [|a|] eqn:E; cbn [abs_area agrees]; try exact Logic.I.
      split; [reflexivity|]. now split.
  Qed.

  Lemma run_agrees : forall ops w v, inv w -> repr w v -> shown (run valid w ops) = vrun valid v ops.
  Proof.
    induction ops as [|o r IH]; intros w v I R; [reflexivity|].
    cbn [run vrun]. pose proof (step_agrees w v o I R) as A.
    destruct (step valid w o) as [[[w' b]|e| |]|]; destruct (vstep valid v o) as [[[v' c]|e'| |]|]; cbn [agrees] in A; try contradiction; try reflexivity.
    destruct A as (-> & I' & R'). rewrite <- (IH w' v' I' R'). destruct (run valid w' r) as [[z|e| |]|]; reflexivity.
  Qed.
  Lemma new_inv : inv world_new.
  Proof. constructor; cbn; intros; try discriminate; reflexivity. Qed.
  Lemma new_repr : repr world_new vworld_new.
  Proof. now split. Qed.
  Theorem values_thm : forall ops, shown (run valid world_new ops) = vrun valid vworld_new ops.
  Proof. intros. apply run_agrees; [apply new_inv|apply new_repr]. Qed.

  (** the invariant holds at the end of each program *)
  Lemma run_inv : forall ops w v w' l, inv w -> repr w v -> run valid w ops = Some (Ok (w', l)) -> inv w'.
  Proof.
    induction ops as [|o r IH]; intros w v w' l I R H.
    - cbn [run] in H. now injection H as <- _.
    - cbn [run] in H. pose proof (step_agrees w v o I R) as A.
      destruct (step valid w o) as [[[w1 b]|e| |]|]; destruct (vstep valid v o) as [[[v1 c]|e'| |]|]; cbn [agrees] in A; try contradiction; try discriminate.
      destruct A as (-> & I' & R'). destruct (run valid w1 r) as [[z|e| |]|] eqn:E; try discriminate. cbn [obind] in H.
      injection H as <- _. destruct z as [w2 l2]. eapply IH; eauto.
  Qed.
  Theorem ownership_thm : forall ops w l, run valid world_new ops = Some (Ok (w, l)) ->
    (forall x a p, w_area w x = Alive a -> a_geom a = Some p -> exists g, h_cell (w_heap w) p = Some g) /\
    (forall x y a b p, w_area w x = Alive a -> w_area w y = Alive b -> a_geom a = Some p -> a_geom b = Some p -> x = y).
  Proof. intros ops w l H. pose proof (run_inv ops _ _ w l new_inv new_repr H) as [A B _]. now split. Qed.

  (* ---- leaks ---- *)
  Definition owned (w : world) : Prop :=
    forall p, h_cell (w_heap w) p <> None -> exists x a, w_area w x = Alive a /\ a_geom a = Some p.
  Lemma own_put : forall w x a h views, owned w -> inv w -> grown (w_heap w) h ->
    (forall g, h = snd (alloc g (w_heap w)) -> a_geom a = Some (h_next (w_heap w))) ->
    (forall b, w_area w x = Alive b -> a_geom b = None \/ a_geom b = a_geom a) ->
    owned (mkWorld h (put (w_area w) x (Alive a)) views).
  Proof.
    intros w x a h views O I G N K p Hp. cbn [w_heap w_area] in *.
    assert (OLD : h_cell (w_heap w) p <> None -> exists y c, put (w_area w) x (Alive a) y = Alive c /\ a_geom c = Some p).
    { intros Hc. destruct (O p Hc) as (y & c & Hy & Gc). destruct (Nat.eq_dec y x) as [-> |Ny].
      - exists x, a. rewrite put_eq. split; [reflexivity|]. destruct (K c Hy); congruence.
      - exists y, c. now rewrite put_ne. }
    destruct G as [-> |(g & ->)]; [now apply OLD|].
    cbn [alloc snd h_cell] in Hp. destruct (Nat.eqb_spec p (h_next (w_heap w))) as [Ep|Np]; [rewrite Ep|now apply OLD].
    exists x, a. rewrite put_eq. split; [reflexivity|]. now apply (N g).
  Qed.
  Lemma heap_ne_alloc : forall h g, h = snd (alloc g h) -> False.
  Proof. intros h g H. apply (f_equal h_next) in H. cbn [alloc snd h_next] in H. lia. Qed.

  Lemma has_shape_spec : forall w v x b, inv w -> repr w v -> w_area w x = Alive b -> has_shape v x = false -> a_geom b = None.
  Proof.
    intros w v x b I [R1 R2] E H. unfold has_shape in H. rewrite <- R1, E in H. cbn [abs_area v_shape] in H.
    destruct (a_geom b) as [p|] eqn:G; [|reflexivity]. destruct (inv_live w I _ _ _ E G) as (g & Hg). rewrite Hg in H. discriminate.
  Qed.
  Lemma step_owned : forall w v o w' b, inv w -> repr w v -> owned w -> replaces v o = false ->
    step valid w o = Some (Ok (w', b)) -> owned w'.
  Proof.
    intros w v o w' c I R O NR H.
    destruct o as [x wy|x r|x y|x y|x g|x ts|x|u x|u|x]; cbn [step replaces] in *.
    - destruct (w_area w x) as [|a|] eqn:E; try discriminate. destruct (area_of_way wy) as [a|e| |]; cbn [or_thrown] in H; try discriminate; injection H as <- _; [|exact O].
      apply own_put; auto; [now left|intros g Hg; destruct (heap_ne_alloc _ _ Hg)|intros b Hb; congruence].
    - destruct (w_area w x) as [|a|] eqn:E; try discriminate. destruct (area_of_relation r) as [a|e| |]; cbn [or_thrown] in H; try discriminate; injection H as <- _; [|exact O].
      apply own_put; auto; [now left|intros g Hg; destruct (heap_ne_alloc _ _ Hg)|intros b Hb; congruence].
    - destruct (w_area w x) as [|a|] eqn:E; try discriminate. destruct (w_area w y) as [|b|] eqn:F; try discriminate.
      pose proof (clone_spec w y b I F) as C. destruct (a_geom b) as [p|] eqn:G; [|rewrite C in H; discriminate].
      destruct C as (g & Hg & C). rewrite C in H. cbn [or_thrown fst snd] in H. injection H as <- _.
      apply own_put; auto; [right; now exists g|intros d Hd; congruence].
    - destruct (w_area w x) as [|a|] eqn:E; try discriminate. destruct (w_area w y) as [|b|] eqn:F; try discriminate.
      pose proof (clone_spec w y b I F) as C. destruct (a_geom b) as [p|] eqn:G; [|rewrite C in H; discriminate].
      destruct C as (g & Hg & C). rewrite C in H. cbn [or_thrown fst snd] in H. injection H as <- _.
      apply own_put; auto; [right; now exists g|]. intros d Hd. left. eapply has_shape_spec; eauto.
    - destruct (w_area w x) as [|a|] eqn:E; try discriminate. destruct g as [g|]; injection H as <- _.
      + apply own_put; auto; [right; now exists (GMulti g)|]. intros d Hd. left. eapply has_shape_spec; eauto.
      + apply own_put; auto; [now left|intros g Hg; destruct (heap_ne_alloc _ _ Hg)|]. intros d Hd. left. eapply has_shape_spec; eauto.
    - destruct (w_area w x) as [|a|] eqn:E; try discriminate. injection H as <- _.
      apply own_put; auto; [now left|intros g Hg; destruct (heap_ne_alloc _ _ Hg)|]. intros d Hd. right. cbn [a_geom]. congruence.
    - destruct (w_area w x) as [|a|] eqn:E; try discriminate. unfold release in H.
      destruct (a_geom a) as [q|] eqn:G.
      + destruct (h_cell (w_heap w) q) as [g|] eqn:Hg; cbn [or_thrown] in H; try discriminate. injection H as <- _.
        intros p Hp. cbn [w_heap w_area h_cell] in *. destruct (Nat.eqb_spec p q) as [Ep|Np]; [congruence|].
        destruct (O p Hp) as (y & d & Hy & Gd). exists y, d. rewrite put_ne; [now split|]. intros ->. congruence.
      + cbn [or_thrown] in H. injection H as <- _.
        intros p Hp. cbn [w_heap w_area] in *. destruct (O p Hp) as (y & d & Hy & Gd). exists y, d. rewrite put_ne; [now split|]. intros ->. congruence.
    - destruct (w_view w u) as [|y|] eqn:U; try discriminate. destruct (w_area w x) as [|a|] eqn:E; try discriminate.
      unfold multipolygon_new in H. destruct (a_geom a) as [p|] eqn:G.
      + cbn [or_thrown fst snd] in H. injection H as <- _.
        apply own_put; auto; [now left|intros g Hg; destruct (heap_ne_alloc _ _ Hg)|]. intros d Hd. right. congruence.
      + destruct (polygon_new (a_nodes a) false) as [p|e| |]; cbn [obind or_thrown] in H; try discriminate; [|injection H as <- _; exact O].
        destruct (geos_polygon valid p) as [q|e| |]; cbn [obind or_thrown] in H; try discriminate; [|injection H as <- _; exact O].
        change (Some (Ok (mkWorld (snd (alloc (GMulti [q]) (w_heap w))) (put (w_area w) x (Alive (mkArea (a_attrs a) (a_nodes a) (Some (h_next (w_heap w)))))) (put (w_view w) u (Alive x)), Done)) = Some (Ok (w', c))) in H.
        injection H as <- _. apply own_put; auto; [right; eexists; reflexivity|]. intros d Hd. left. congruence.
    - destruct (w_view w u) as [|y|] eqn:U; try discriminate. destruct (w_area w y) as [|a|] eqn:E; try discriminate.
      destruct (borrow a (w_heap w)) as [g|e| |]; cbn [or_thrown] in H; try discriminate; injection H as <- _; exact O.
    - destruct (w_area w x) as [|a|] eqn:E; try discriminate. injection H as <- _. exact O.
  Qed.
  Lemma run_owned : forall ops w v w' l, inv w -> repr w v -> owned w -> any_replaces valid v ops = false ->
    run valid w ops = Some (Ok (w', l)) -> owned w'.
  Proof.
    induction ops as [|o r IH]; intros w v w' l I R O N H.
    - cbn [run] in H. now injection H as <- _.
    - cbn [run any_replaces] in *. pose proof (step_agrees w v o I R) as A. apply Bool.orb_false_iff in N as [N1 N2].
      destruct (step valid w o) as [[[w1 b]|e| |]|] eqn:S; destruct (vstep valid v o) as [[[v1 c]|e'| |]|]; cbn [agrees] in A; try contradiction; try discriminate.
      destruct A as (-> & I' & R'). destruct (run valid w1 r) as [[z|e| |]|] eqn:E; try discriminate. cbn [obind] in H.
      injection H as <- _. destruct z as [w2 l2]. exact (IH w1 v1 w2 l2 I' R' (step_owned w v o w1 c I R O N1 S) N2 E).
  Qed.
  Theorem no_leak_thm : forall ops w l, run valid world_new ops = Some (Ok (w, l)) -> any_replaces valid vworld_new ops = false ->
    (forall x a, w_area w x <> Alive a) -> forall p, h_cell (w_heap w) p = None.
  Proof.
    intros ops w l H N D p. destruct (h_cell (w_heap w) p) eqn:E; [|reflexivity]. exfalso.
    assert (O : owned w). { apply (run_owned ops _ _ w l new_inv new_repr) in H; auto. intros q Hq. now destruct Hq. }
    destruct (O p) as (x & a & Hx & _); [congruence|]. exact (D x a Hx).
  Qed.
End Valid.
