(** Proofs about the map of node densities. *)
From Verif Require Import Base.Prelude Model.Osm Model.Float Model.Handler Model.Convert Model.Density Spec.OsmSpec Spec.HandlerSpec Spec.DensitySpec
  Proofs.HandlerProofs Proofs.Handler2Proofs Proofs.DensityFloat.
Local Open Scope Z_scope.

Definition cfg_for (size mn mx : Z) : dcfg := mkDC (size * 2) size (d_of_Z (Z.quot size 180)) mn mx (mx - mn).
Definition place_for (size : Z) (p : position) : Z * Z := match dn_place (cfg_for size 0 0) p with Ok xy => xy | _ => (0, 0) end.
Lemma place_cfg size mn mx p : dn_place (cfg_for size mn mx) p = dn_place (cfg_for size 0 0) p.
Proof. reflexivity. Qed.
Lemma int_ok z : in_i32 z -> int z = Ok z.
Proof. intros H. unfold int. rewrite (proj2 (in_i32b_spec z) H). reflexivity. Qed.

Lemma indices_seq n : forall k, dn_indices n k = map (fun j => k + Z.of_nat j) (seq 0 n).
Proof.
  induction n as [|n IH]; intros k; [reflexivity|]. cbn [dn_indices seq map]. rewrite IH, <- seq_shift, map_map. f_equal; [lia|].
  apply map_ext. intros j. lia.
Qed.

Section Size.
  Variables size mn mx : Z.
  Hypothesis Hs : 1 <= size <= 32767.
  Let c := cfg_for size mn mx.
  Let place := place_for size.
  Lemma place_right p : stored p -> dn_place c p = Ok (place p) /\ placed size p (place p).
  Proof.
    intros [Hx Hy]. unfold place, place_for, c. rewrite (place_cfg size mn mx).
    assert (Q : Z.quot size 180 = size / 180) by (apply Z.quot_div_nonneg; lia).
    assert (Fb : 0 <= size / 180 <= 182) by (split; [apply Z.div_pos; lia|apply Z.lt_succ_r; apply Z.div_lt_upper_bound; lia]).
    unfold dn_place, cfg_for. cbn [dc_factor dc_xsize dc_ysize]. rewrite Q.
    destruct (column_found (px p) (size / 180) (2 * size) Hx Fb ltac:(lia)) as (tx & Ex & Cx).
    destruct (row_found (py p) (size / 180) size Hy Fb ltac:(lia)) as (ty & Ey & Cy).
    unfold pos_lon, pos_lat. rewrite Ex. cbn [obind]. rewrite Ey. cbn [obind].
    replace (size * 2) with (2 * size) by lia. split; [reflexivity|]. split; [exact Cx|exact Cy].
  Qed.
  Lemma cell_range f n a k : 1 <= n -> cell f n a k -> 0 <= k < n.
  Proof. intros Hn (q & _ & ->). lia. Qed.
  Lemma place_range p : stored p -> 0 <= fst (place p) < 2 * size /\ 0 <= snd (place p) < size.
  Proof. intros H. destruct (place_right p H) as [_ [A B]]. split; eapply cell_range; try eassumption; lia. Qed.

  Definition counted (ps : list position) (s : density) : Prop :=
    dn_image s = None /\
    (forall x y, 0 <= x < 2 * size -> 0 <= y < size -> dn_count s (y * (2 * size) + x) = Z.min 65534 (placed_at place x y ps)) /\
    fullest place ps (dn_max_count s).
  Lemma placed_at_nonneg x y ps : 0 <= placed_at place x y ps.
  Proof. induction ps as [|p ps IH]; cbn [placed_at]; [lia|]. destruct (_ && _); lia. Qed.
  Lemma placed_at_snoc x y ps p : placed_at place x y (ps ++ [p]) = placed_at place x y ps + (if (fst (place p) =? x) && (snd (place p) =? y) then 1 else 0).
  Proof. induction ps as [|q ps IH]; cbn [app placed_at]; [lia|]. rewrite IH. lia. Qed.
  Lemma index_inj x y x' y' : 0 <= x < 2 * size -> 0 <= x' < 2 * size -> y * (2 * size) + x = y' * (2 * size) + x' -> x = x' /\ y = y'.
  Proof. intros A B E. assert (y = y') by nia. subst. lia. Qed.
  Lemma count_node ps s p : stored p -> counted ps s -> exists s', dn_node c p s = Ok s' /\ counted (ps ++ [p]) s'.
  Proof.
    intros Sp [Im [C [Fm Fe]]]. destruct (place_right p Sp) as [E _]. destruct (place_range p Sp) as [Rx Ry].
    unfold dn_node. rewrite E. cbn [obind]. unfold c, cfg_for at 1 2 3. cbn [dc_xsize dc_ysize].
    destruct (place p) as [x y] eqn:Ep. cbn [fst snd] in *.
    rewrite int_ok by (unfold in_i32, int32_min, int32_max; nia). cbn [obind].
    rewrite int_ok by (unfold in_i32, int32_min, int32_max; nia). cbn [obind].
    replace (size * 2) with (2 * size) by lia.
    rewrite (proj2 (Z.leb_le _ _)) by nia. rewrite (proj2 (Z.ltb_lt _ _)) by nia. cbn [andb]. cbv zeta.
    pose proof (C x y Rx Ry) as C0. rewrite C0. change (65535 - 1) with 65534.
    assert (V : (if Z.min 65534 (placed_at place x y ps) <? 65534 then Z.min 65534 (placed_at place x y ps) + 1 else Z.min 65534 (placed_at place x y ps)) =
      Z.min 65534 (placed_at place x y (ps ++ [p]))).
    { rewrite placed_at_snoc, Ep. cbn [fst snd]. rewrite !Z.eqb_refl. cbn [andb]. pose proof (placed_at_nonneg x y ps).
      destruct (Z.ltb_spec (Z.min 65534 (placed_at place x y ps)) 65534); lia. }
    eexists. split; [reflexivity|]. split; [exact Im|]. cbn [dn_count dn_max_count]. split.
    2:{ rewrite V. split.
        - intros x' y'. specialize (Fm x' y'). rewrite Z.gtb_ltb.
          destruct (Z.eq_dec x x') as [<-|Nx]; [destruct (Z.eq_dec y y') as [<-|Ny]|].
          + destruct (Z.ltb_spec (dn_max_count s) (Z.min 65534 (placed_at place x y (ps ++ [p])))); lia.
          + rewrite placed_at_snoc, Ep. cbn [fst snd]. rewrite (proj2 (Z.eqb_neq y y') Ny), andb_false_r, Z.add_0_r.
            destruct (Z.ltb_spec (dn_max_count s) (Z.min 65534 (placed_at place x y (ps ++ [p])))); lia.
          + rewrite placed_at_snoc, Ep. cbn [fst snd]. rewrite (proj2 (Z.eqb_neq x x') Nx). cbn [andb]. rewrite Z.add_0_r.
            destruct (Z.ltb_spec (dn_max_count s) (Z.min 65534 (placed_at place x y (ps ++ [p])))); lia.
        - rewrite Z.gtb_ltb. destruct (Z.ltb_spec (dn_max_count s) (Z.min 65534 (placed_at place x y (ps ++ [p])))) as [L|L]; [eauto|].
          destruct Fe as (x' & y' & Fe). exists x', y'. pose proof (Fm x' y') as M'.
          rewrite placed_at_snoc, Ep. cbn [fst snd]. destruct ((x =? x') && (y =? y')) eqn:B; [|rewrite Z.add_0_r; exact Fe].
          apply andb_true_iff in B as [B1 B2]. apply Z.eqb_eq in B1, B2. subst x' y'.
          rewrite placed_at_snoc, Ep in L. cbn [fst snd] in L. rewrite !Z.eqb_refl in L. cbn [andb] in L. pose proof (placed_at_nonneg x y ps). lia. }
    rewrite V. intros x' y' Hx Hy. rewrite (placed_at_snoc x' y'), Ep. cbn [fst snd].
    pose proof (placed_at_nonneg x' y' ps) as Nn.
    destruct (Z.eqb_spec (y' * (2 * size) + x') (y * (2 * size) + x)) as [Ei|Ei].
    - destruct (index_inj x' y' x y Hx Rx Ei) as [-> ->]. rewrite (placed_at_snoc x y), Ep. reflexivity.
    - rewrite (C x' y' Hx Hy). destruct (Z.eqb_spec x x') as [<-|Nx]; [destruct (Z.eqb_spec y y') as [<-|Ny]; [contradiction|]|]; cbn [andb]; rewrite Z.add_0_r; reflexivity.
  Qed.
  Lemma count_nodes ns : (forall o, In o ns -> obj_type o = NODE) -> Forall stored (node_positions ns) -> forall ps s, counted ps s ->
    exists s', takes (density_handler c) (map CObj ns) s s' /\ counted (ps ++ node_positions ns) s'.
  Proof.
    induction ns as [|o ns IH]; intros T F ps s C.
    - exists s. split; [now apply takes_nil|]. cbn. rewrite app_nil_r. exact C.
    - pose proof (T o (or_introl eq_refl)) as To. destruct o as [n|w|r]; try discriminate To. cbn [node_positions flat_map app] in F |- *. inversion F as [|? ? F1 F2]; subst.
      destruct (count_node ps s (n_pos n) F1 C) as (s1 & E1 & C1). destruct (IH (fun o H => T o (or_intror H)) F2 _ _ C1) as (s2 & T2 & C2).
      exists s2. split; [cbn [map]; apply takes_cons; exists s1; split; [cbn [density_handler]; rewrite E1; reflexivity|exact T2]|].
      rewrite <- app_assoc in C2. exact C2.
  Qed.

  Hypothesis Hd : mn < mx <= mn + 8421504.
  Lemma shade_right v : 0 <= v <= 65534 -> dn_shade c v = Ok (grey mn mx v).
  Proof.
    intros Hv. unfold dn_shade, c, cfg_for. cbn [dc_min dc_max dc_diff]. cbv zeta.
    set (w := if (if v <? mn then mn else v) >? mx then mx else (if v <? mn then mn else v)).
    assert (Ew : w = Z.max mn (Z.min v mx)).
    { unfold w. destruct (Z.ltb_spec v mn) as [A|A]; [destruct (Z.gtb_spec mn mx)|destruct (Z.gtb_spec v mx)]; lia. }
    rewrite Ew. clear w Ew. set (w := Z.max mn (Z.min v mx)). assert (W : mn <= w <= mx) by (unfold w; lia).
    unfold grey. fold w. clearbody w.
    rewrite int_ok by (unfold in_i32, int32_min, int32_max; lia). cbn [obind].
    rewrite int_ok by (unfold in_i32, int32_min, int32_max; lia). cbn [obind].
    destruct (Z.eqb_spec (mx - mn) 0); [lia|]. rewrite Z.quot_div_nonneg by lia.
    assert (B : 0 <= (w - mn) * 255 / (mx - mn) <= 255).
    { split; [apply Z.div_pos; lia|]. apply Z.div_le_upper_bound; [lia|]. nia. }
    rewrite int_ok by (unfold in_i32, int32_min, int32_max; lia). cbn [obind]. rewrite Z.mod_small by lia. reflexivity.
  Qed.
  Lemma pixels_right s ks : (forall k, In k ks -> 0 <= dn_count s k <= 65534) -> dn_pixels c s ks = Ok (map (fun k => grey mn mx (dn_count s k)) ks).
  Proof.
    induction ks as [|k ks IH]; intros H; [reflexivity|]. cbn [dn_pixels map]. rewrite shade_right by (apply H; left; reflexivity). cbn [obind].
    rewrite IH by (intros q Q; apply H; right; exact Q). reflexivity.
  Qed.
  Lemma index_split k : 0 <= k < 2 * size * size -> exists x y, 0 <= x < 2 * size /\ 0 <= y < size /\ k = y * (2 * size) + x.
  Proof.
    intros H. exists (k mod (2 * size)), (k / (2 * size)). pose proof (Z.mod_pos_bound k (2 * size) ltac:(lia)). pose proof (Z.div_mod k (2 * size) ltac:(lia)).
    split; [lia|]. split; [|lia]. split; [apply Z.div_pos; lia|apply Z.div_lt_upper_bound; lia].
  Qed.
  Lemma image_right ps s : counted ps s -> exists image, density_handler c (CAfter NODE) s = (mkD (dn_count s) (dn_max_count s) (Some image), Some (HExn EStopReading)) /\
    shows_density size mn mx place ps image.
  Proof.
    intros [_ [C _]]. assert (In_range : forall k, In k (dn_indices (Z.to_nat (2 * size * size)) 0) -> 0 <= k < 2 * size * size).
    { intros k H. rewrite indices_seq in H. apply in_map_iff in H as (j & <- & H). apply in_seq in H. lia. }
    cbn [density_handler]. unfold c at 2 3, cfg_for. cbn [dc_xsize dc_ysize]. replace (size * 2 * size) with (2 * size * size) by lia.
    rewrite pixels_right.
    - eexists. split; [reflexivity|]. split.
      + rewrite map_length, indices_seq, map_length, seq_length. nia.
      + intros x y Hx Hy. rewrite <- (C x y Hx Hy). rewrite indices_seq, map_map. set (k := y * (2 * size) + x).
        assert (K : 0 <= k < 2 * size * size) by (unfold k; nia).
        rewrite nth_error_map.
        assert (E : nth_error (seq 0 (Z.to_nat (2 * size * size))) (Z.to_nat k) = Some (Z.to_nat k)).
        { rewrite (nth_error_nth' _ O) by (rewrite seq_length; lia). rewrite seq_nth by lia. reflexivity. }
        rewrite E. cbn [option_map]. rewrite Z.add_0_l, Z2Nat.id by lia. reflexivity.
    - intros k H. apply In_range in H. destruct (index_split k H) as (x & y & Hx & Hy & ->). rewrite (C x y Hx Hy).
      pose proof (placed_at_nonneg x y ps). lia.
  Qed.
End Size.

(** nothing happens for other types *)
Lemma other_brackets c gs : (forall g, In g gs -> well_typed g /\ fst g <> NODE) -> forall s, takes (density_handler c) (flat_map bracket gs) s s.
Proof.
  induction gs as [|g gs IH]; intros H s; [now apply takes_nil|]. cbn [flat_map]. apply takes_app. exists s. split; [|apply IH; intros q Q; apply H; right; exact Q].
  destruct (H g (or_introl eq_refl)) as [[Ot T] N]. unfold bracket. apply takes_cons. exists s. split; [reflexivity|]. apply takes_app. exists s.
  split.
  - assert (L : forall os, (forall o, In o os -> obj_type o <> NODE) -> takes (density_handler c) (map CObj os) s s).
    { induction os as [|o os IHo]; intros Q; [now apply takes_nil|]. cbn [map]. apply takes_cons. exists s. split; [|apply IHo; intros u U; apply Q; right; exact U].
      pose proof (Q o (or_introl eq_refl)) as X. destruct o; [destruct X; reflexivity|reflexivity|reflexivity]. }
    apply L. intros o I. rewrite (T o I). exact N.
  - apply takes_cons. exists s. split; [|now apply takes_nil]. cbn [density_handler]. destruct (fst g); try reflexivity. destruct N; reflexivity.
Qed.

Theorem density_image size : 1 <= size <= 32767 -> exists place, (forall p, stored p -> placed size p (place p)) /\
  forall mn mx gs before ns rest, mn < mx <= mn + 8421504 -> (forall g, In g gs -> well_typed g) ->
    join gs = before ++ (NODE, ns) :: rest -> (forall g, In g before -> fst g <> NODE) -> Forall stored (node_positions ns) ->
    exists c s0 s image, density_new size mn mx = Ok (c, s0) /\ input_read (density_handler c) (gs, Ok tt) s0 = (s, None, true) /\
      dn_image s = Some image /\ shows_density size mn mx place (node_positions ns) image /\
      fullest place (node_positions ns) (dn_max_count s).
Proof.
  intros Hs. exists (place_for size). split; [intros p Sp; apply (place_right size 0 0 Hs p Sp)|].
  intros mn mx gs before ns rest Hd W J B F.
  assert (N : gs <> []) by (intros ->; destruct before; discriminate J).
  pose proof (join_well_typed gs W) as K. rewrite J in K.
  assert (E : protocol gs = (CInit :: flat_map bracket before ++ CBefore NODE :: map CObj ns) ++ CAfter NODE :: flat_map bracket rest).
  { unfold protocol. rewrite J, flat_map_app. cbn [flat_map]. unfold bracket at 2. cbn [fst snd app]. rewrite <- !app_assoc. cbn [app]. reflexivity. }
  set (c := cfg_for size mn mx). set (s0 := mkD (fun _ => 0) 0 None).
  assert (C0 : counted size [] s0) by (split; [reflexivity|]; split; [intros; reflexivity|]; split; [intros; cbn; lia|exists 0, 0; reflexivity]).
  destruct (count_nodes size mn mx Hs ns (proj2 (K (NODE, ns) ltac:(apply in_app_iff; right; left; reflexivity))) F [] s0 C0) as (s1 & T1 & C1). cbn [app] in C1.
  destruct (image_right size mn mx Hs Hd _ s1 C1) as (image & A & Sh).
  set (s2 := mkD (dn_count s1) (dn_max_count s1) (Some image)) in A.
  assert (T : takes (density_handler c) (CInit :: flat_map bracket before ++ CBefore NODE :: map CObj ns) s0 s1).
  { apply takes_cons. exists s0. split; [reflexivity|]. apply takes_app. exists s0. split.
    - apply other_brackets. intros g I. split; [apply K; apply in_app_iff; left; exact I|apply B; exact I].
    - apply takes_cons. exists s0. split; [reflexivity|exact T1]. }
  pose proof (stop_at _ (density_handler c) gs s0 _ _ _ s1 s2 N W E T A) as O. unfold observe in O. cbn [density_handler fst snd] in O.
  exists c, s0, s2, image. split.
  { unfold density_new. rewrite int_ok by (unfold in_i32, int32_min, int32_max; lia). cbn [obind]. cbv zeta.
    rewrite int_ok by (unfold in_i32, int32_min, int32_max; nia). cbn [obind].
    rewrite int_ok by (unfold in_i32, int32_min, int32_max; lia). reflexivity. }
  split; [|split; [reflexivity|split; [exact Sh|apply C1]]].
  unfold input_read. cbn [fst snd]. destruct (parse (density_handler c) gs None s0) as [st h]. cbn [fst snd] in O. injection O as _ -> ->. reflexivity.
Qed.
(** without nodes there is no image *)
Theorem density_empty c s0 gs : (forall g, In g gs -> well_typed g) -> (forall g, In g (join gs) -> fst g <> NODE) ->
  input_read (density_handler c) (gs, Ok tt) s0 = (s0, None, true).
Proof.
  intros W B. unfold input_read. cbn [fst snd]. destruct gs as [|g0 gs']; [reflexivity|]. set (gs := g0 :: gs') in *.
  assert (N : gs <> []) by discriminate.
  assert (T : takes (density_handler c) (protocol gs) s0 s0).
  { unfold protocol. apply takes_cons. exists s0. split; [reflexivity|]. apply other_brackets. intros g I. split; [apply (join_well_typed gs W); exact I|apply B; exact I]. }
  pose proof (no_throw _ (density_handler c) gs s0 s0 N W T) as O. unfold observe in O. cbn [density_handler fst snd] in O.
  destruct (parse (density_handler c) gs None s0) as [st h]. cbn [fst snd] in O. injection O as _ -> ->. reflexivity.
Qed.
