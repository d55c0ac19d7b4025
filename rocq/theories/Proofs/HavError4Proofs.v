(** How far the length of a way computed with doubles is from the real one, and functions of the C library that are as accurate as asked for. *)
From Coq Require Import Reals Lra Psatz Rtrigo Ratan.
From Flocq Require Import Core IEEE754.BinarySingleNaN IEEE754.Binary IEEE754.Bits.
From Verif Require Import Base.Prelude Model.Osm Model.Float Model.Haversine Spec.FloatSpec Spec.HaversineSpec
  Proofs.FloatProofs Proofs.HaversineProofs Proofs.HavFloatProofs Proofs.PiProofs Proofs.HavErrorProofs Proofs.HavError2Proofs Proofs.HavError3Proofs.
Local Open Scope R_scope.

Section Way.
  Variables dsin dcos dasin : double -> double.
  Hypotheses (As : accurate 4 dsin sin) (Ac : accurate 4 dcos cos) (Aa : accurate 1 dasin asin).
  Let dsum := sum_distances double d_add d_sub d_mul dsin dcos dasin d_sqrt d_half d_two d_deg_to_rad d_radius pos_lon pos_lat.
  Let rsum := sum_distances R Rplus Rminus Rmult sin cos asin sqrt (/ 2) 2 r_deg_to_rad r_radius r_lon r_lat.
  Lemma sum_near ns : forall sum rs k, near sum rs (IZR k * 0.002) -> Rabs rs <= IZR k * 20000000 -> (0 <= k)%Z -> (k + Z.of_nat (List.length ns) <= 100001)%Z ->
    Forall on_earth (map wn_pos ns) -> steps_within 20000000 (map wn_pos ns) ->
    near (dsum sum ns) (rsum rs ns) (IZR (k + Z.of_nat (List.length ns - 1)) * 0.002).
  Proof.
    induction ns as [|a ns IH]; intros sum rs k N B K L E S.
    - replace (k + Z.of_nat (List.length (@nil way_node) - 1))%Z with k by (cbn; lia). exact N.
    - destruct ns as [|b r].
      + replace (k + Z.of_nat (List.length [a] - 1))%Z with k by (cbn; lia). exact N.
      + cbn [map] in E, S. apply Forall_cons_iff in E. destruct E as [Ea E]. pose proof E as E'. apply Forall_cons_iff in E'. destruct E' as [Eb _].
        cbn [steps_within] in S. destruct S as [S1 S].
        replace (k + Z.of_nat (List.length (a :: b :: r) - 1))%Z with ((k + 1) + Z.of_nat (List.length (b :: r) - 1))%Z by (cbn [List.length]; lia).
        cbn [List.length] in L.
        assert (KR : 0 <= IZR k <= 100000) by (split; apply IZR_le; lia).
        destruct (distance_close dsin dcos dasin (wn_pos a) (wn_pos b) As Ac Aa Ea Eb S1) as [Fd Ed].
        pose proof (great_circle_bounds (wn_pos a) (wn_pos b)) as [G0 _]. rewrite <- distance_great_circle in G0.
        change (dsum sum (a :: b :: r)) with (dsum (d_add sum (d_distance dsin dcos dasin (wn_pos a) (wn_pos b))) (b :: r)).
        change (rsum rs (a :: b :: r)) with (rsum (rs + r_distance (wn_pos a) (wn_pos b)) (b :: r)).
        set (x := d_distance dsin dcos dasin (wn_pos a) (wn_pos b)) in *. set (y := r_distance (wn_pos a) (wn_pos b)) in *.
        unfold d_fin, d_val in *. change (B2R 53 1024 x) with (val x) in Ed. apply abs_bounds in Ed. apply abs_bounds in B. destruct N as [Fs N]. apply abs_bounds in N.
        apply IH; [|rewrite plus_IZR; apply Rabs_le; lra|lia|cbn [List.length]; lia|exact E|exact S].
        assert (V : Rabs (val sum + val x) <= 2100000000000) by (apply Rabs_le; lra).
        destruct (add_spec sum x Fs Fd) as [W F]; [unfold big; lra|]. split; [exact F|]. rewrite W, plus_IZR. pose proof (rnd_abs _ _ V) as RA. apply abs_bounds in RA.
        apply Rabs_le. unfold u64, eta64 in *. lra.
  Qed.
  Lemma way_close ns : (Z.of_nat (List.length ns) <= 100001)%Z -> Forall on_earth (map wn_pos ns) -> steps_within 20000000 (map wn_pos ns) ->
    d_fin (d_way_distance dsin dcos dasin ns) /\
    Rabs (d_val (d_way_distance dsin dcos dasin ns) - r_way_distance ns) <= IZR (Z.of_nat (List.length ns - 1)) * 0.002.
  Proof.
    intros L E S. unfold d_way_distance, r_way_distance, way_distance.
    destruct (List.length ns <? 2)%nat eqn:T.
    - split; [reflexivity|]. unfold d_val. change (B2R 53 1024 d_zero) with 0. rewrite Rminus_diag_eq, Rabs_R0 by reflexivity.
      apply Rmult_le_pos; [apply IZR_le; lia|lra].
    - apply (sum_near ns d_zero 0 0); try assumption; try lia; [|rewrite Rabs_R0; lra].
      split; [reflexivity|]. change (val d_zero) with 0. rewrite Rminus_diag_eq, Rabs_R0 by reflexivity. lra.
  Qed.
End Way.

(* ---- functions of the C library that are rounded correctly ---- *)
Definition rounded (r : R) : double :=
  binary_normalize 53 1024 (eq_refl : FLX.Prec_gt_0 53) (eq_refl : BinarySingleNaN.Prec_lt_emax 53 1024) mode_NE
    (Ztrunc (scaled_mantissa radix2 (FLT_exp (-1074) 53) (rnd64 r))) (cexp radix2 (FLT_exp (-1074) 53) (rnd64 r)) false.
Lemma rounded_spec r : Rabs r <= big -> val (rounded r) = rnd64 r /\ fin (rounded r) = true.
Proof.
  intros B. assert (G : generic_format radix2 (FLT_exp (-1074) 53) (rnd64 r)) by (apply generic_format_round; [apply FLT_exp_valid; reflexivity|apply valid_rnd_N]).
  pose proof (binary_normalize_correct 53 1024 (eq_refl : FLX.Prec_gt_0 53) (eq_refl : BinarySingleNaN.Prec_lt_emax 53 1024) mode_NE
    (Ztrunc (scaled_mantissa radix2 (FLT_exp (-1074) 53) (rnd64 r))) (cexp radix2 (FLT_exp (-1074) 53) (rnd64 r)) false) as C.
  cbn zeta in C. unfold generic_format in G. rewrite <- G in C. rewrite fexp_eq in C. cbn [round_mode] in C.
  assert (I : rnd64 (rnd64 r) = rnd64 r) by (apply round_generic; [apply valid_rnd_N|apply generic_format_round; [apply FLT_exp_valid; reflexivity|apply valid_rnd_N]]).
  change (round radix2 (FLT_exp (-1074) 53) ZnearestE (rnd64 r)) with (rnd64 (rnd64 r)) in C. rewrite I, rnd64_lt in C by exact B. destruct C as (C1 & C2 & _). split; assumption.
Qed.
Lemma rounded_accurate lim g : (forall a, Rabs a <= lim -> Rabs (g a) <= 1000) -> accurate lim (fun x => rounded (g (d_val x))) g.
Proof.
  intros H x F L. specialize (H _ L). destruct (rounded_spec (g (d_val x))) as [V Fv]; [unfold big; lra|]. split; [exact Fv|]. unfold d_val at 1. change (B2R 53 1024 (rounded (g (d_val x)))) with (val (rounded (g (d_val x)))). rewrite V.
  eapply Rle_trans; [apply (rnd_abs _ _ (Rle_refl _))|]. rewrite two52, two100. pose proof (Rabs_pos (g (d_val x))). consts.
Qed.
Definition lib_sin (x : double) : double := rounded (sin (d_val x)).
Definition lib_cos (x : double) : double := rounded (cos (d_val x)).
Definition lib_asin (x : double) : double := if Rlt_dec 1 (d_val x) then b64_of_bits 9221120237041090560 else rounded (asin (d_val x)).
Lemma lib_accurate : accurate 4 lib_sin sin /\ accurate 4 lib_cos cos /\ accurate 1 lib_asin asin /\ undefined_above_one lib_asin.
Proof.
  split; [apply rounded_accurate; intros; pose proof (abs_sin_1 a); lra|]. split; [apply rounded_accurate; intros; pose proof (abs_cos_1 a); lra|].
  assert (A : forall a, Rabs (asin a) <= 1000) by (intros a; pose proof (asin_bound a); pose proof pi_bounds as P; unfold r_deg_to_rad in P; apply Rabs_le; lra).
  split.
  - intros x F L. unfold lib_asin. destruct (Rlt_dec 1 (d_val x)) as [G|G]; [exfalso; apply abs_bounds in L; lra|]. apply (rounded_accurate 1 asin (fun a _ => A a) x F L).
  - intros x F G. unfold lib_asin. destruct (Rlt_dec 1 (d_val x)); [|contradiction]. unfold d_fin. vm_compute. discriminate.
Qed.
(** a quarter of the equator *)
Lemma quarter : on_earth (mkPos 0 0) /\ on_earth (mkPos 900000000 0) /\ 0 < r_distance (mkPos 0 0) (mkPos 900000000 0) <= 20000000.
Proof.
  split; [split; cbn; lia|]. split; [split; cbn; lia|].
  assert (E : r_distance (mkPos 0 0) (mkPos 900000000 0) = r_radius * (90 * r_deg_to_rad)).
  { rewrite distance_great_circle. unfold great_circle. f_equal.
    pose proof pi_bounds as P. unfold r_deg_to_rad in *. rewrite <- (acos_cos (90 * _)) by lra. f_equal. unfold dot, on_sphere, r_lon, r_lat, coordinate_precision. cbn [vx vy vz px py].
    replace (0 / 10000000) with 0 by field. replace (900000000 / 10000000) with 90 by field. rewrite !Rmult_0_l, cos_0, sin_0. unfold r_deg_to_rad. ring. }
  rewrite E. unfold r_radius, r_deg_to_rad. lra.
Qed.

(* ---- a sine that is wrong by one unit in the last place ---- *)
Definition quarter_turn : double := d_mul (d_of_Z 90) d_deg_to_rad.
Definition is_bits (x y : double) : bool := (bits_of_b64 x =? bits_of_b64 y)%Z.
Lemma is_bits_eq x y : is_bits x y = true -> x = y.
Proof. unfold is_bits. intros H. apply Z.eqb_eq in H. apply (f_equal b64_of_bits) in H. unfold b64_of_bits, bits_of_b64 in H. rewrite !binary_float_of_bits_of_binary_float in H. exact H. Qed.
Definition above_one : double := b64_of_bits 4607182418800017409.
Definition high_sin (x : double) : double := if is_bits x d_zero then d_zero else if is_bits x quarter_turn then above_one else lib_sin x.
Definition one_cos (x : double) : double := if is_bits x d_zero then d_of_Z 1 else lib_cos x.
Lemma quarter_sin : 1 - / 10000000000000000000000000000000 <= sin (val quarter_turn) <= 1.
Proof.
  split; [|apply SIN_bound].
  assert (E : val quarter_turn = IZR 7074237752028440 * / IZR (2 ^ 52)) by (vm_compute; reflexivity). change (2 ^ 52)%Z with 4503599627370496%Z in E.
  pose proof pi_bounds as P. unfold r_deg_to_rad in P. set (d := PI / 2 - val quarter_turn).
  assert (D : 0 <= d <= / 10000000000000000) by (unfold d; rewrite E; lra).
  replace (val quarter_turn) with (PI / 2 - 2 * (d / 2)) by (unfold d; field). rewrite sin_shift, cos_2a_sin.
  pose proof (sin_abs (d / 2)) as S. rewrite (Rabs_pos_eq (d / 2)) in S by lra. apply abs_bounds in S.
  assert (sin (d / 2) * sin (d / 2) <= / 20000000000000000 * / 20000000000000000).
  { eapply Rle_trans; [apply Rle_abs|]. rewrite Rabs_mult. apply Rmult_le_compat; try apply Rabs_pos; apply Rabs_le; lra. }
  lra.
Qed.
Lemma high_sin_accurate : accurate 4 high_sin sin /\ accurate 4 one_cos cos.
Proof.
  destruct lib_accurate as (LS & LC & _). split; intros x F L.
  - unfold high_sin. destruct (is_bits x d_zero) eqn:E; [|destruct (is_bits x quarter_turn) eqn:E2; [|now apply LS]].
    + apply is_bits_eq in E. subst x. split; [reflexivity|]. unfold d_val. change (B2R 53 1024 d_zero) with 0. rewrite sin_0, Rminus_0_r, Rabs_R0, two52, two100. consts.
    + apply is_bits_eq in E2. subst x. split; [reflexivity|]. unfold d_val. change (B2R 53 1024 quarter_turn) with (val quarter_turn).
      assert (V : B2R 53 1024 above_one = IZR 4503599627370497 * / IZR (2 ^ 52)) by (vm_compute; reflexivity). change (2 ^ 52)%Z with 4503599627370496%Z in V. rewrite V.
      pose proof quarter_sin as Q. rewrite (Rabs_pos_eq (sin _)) by lra. rewrite two52, two100. apply Rabs_le. unfold eta64. lra.
  - unfold one_cos. destruct (is_bits x d_zero) eqn:E; [|now apply LC]. apply is_bits_eq in E. subst x. split; [reflexivity|]. unfold d_val. change (B2R 53 1024 d_zero) with 0.
    destruct (d_of_Z_spec 1 ltac:(lia)) as [V _]. change (B2R 53 1024 (d_of_Z 1)) with (val (d_of_Z 1)). rewrite V, cos_0, Rminus_diag_eq, Rabs_R0, Rabs_R1, two52, two100 by reflexivity. consts.
Qed.
Lemma antipodes_nan : exists dsin dcos dasin p q, accurate 4 dsin sin /\ accurate 4 dcos cos /\ accurate 1 dasin asin /\ undefined_above_one dasin /\
  on_earth p /\ on_earth q /\ ~ d_fin (d_distance dsin dcos dasin p q).
Proof.
  destruct high_sin_accurate as [HS HC]. destruct lib_accurate as (_ & _ & LA & LU).
  exists high_sin, one_cos, lib_asin, (mkPos 1800000000 0), (mkPos 0 0). do 4 (split; [assumption|]). split; [split; cbn; lia|]. split; [split; cbn; lia|].
  intros F. rewrite d_root_distance in F.
  assert (E : d_root high_sin one_cos (mkPos 1800000000 0) (mkPos 0 0) = above_one) by (apply is_bits_eq; vm_compute; reflexivity).
  rewrite E in F. unfold lib_asin in F. destruct (Rlt_dec 1 (d_val above_one)) as [_|N]; [revert F; vm_compute; discriminate|].
  apply N. assert (V : d_val above_one = IZR 4503599627370497 * / IZR (2 ^ 52)) by (vm_compute; reflexivity). change (2 ^ 52)%Z with 4503599627370496%Z in V. rewrite V. lra.
Qed.
