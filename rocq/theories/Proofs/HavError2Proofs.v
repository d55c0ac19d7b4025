(** How far the distances computed with doubles are from the real ones: the rounding errors. *)
From Coq Require Import Reals Lra Psatz Rtrigo Ratan.
From Flocq Require Import Core IEEE754.BinarySingleNaN IEEE754.Binary IEEE754.Bits.
From Verif Require Import Base.Prelude Model.Osm Model.Float Model.Haversine Spec.FloatSpec Spec.HaversineSpec
  Proofs.FloatProofs Proofs.HaversineProofs Proofs.HavFloatProofs Proofs.PiProofs Proofs.HavErrorProofs.
Local Open Scope R_scope.

Definition near (x : double) (r e : R) : Prop := fin x = true /\ Rabs (val x - r) <= e.
Lemma near_le x r e e' : near x r e -> e <= e' -> near x r e'.
Proof. intros [F H] L. split; [exact F|lra]. Qed.
Lemma near_abs x r e B : near x r e -> Rabs r <= B -> Rabs (val x) <= B + e.
Proof. intros [F H] L. replace (val x) with (r + (val x - r)) by ring. eapply Rle_trans; [apply Rabs_triang|]. lra. Qed.
Lemma rnd_abs v V : Rabs v <= V -> Rabs (rnd64 v - v) <= u64 * V + eta64.
Proof.
  intros H. destruct (rnd64_error v) as (e & h & He & Hh & ->). replace (v * (1 + e) + h - v) with (e * v + h) by ring.
  eapply Rle_trans; [apply Rabs_triang|]. rewrite Rabs_mult. assert (Rabs e * Rabs v <= u64 * V) by (apply Rmult_le_compat; try apply Rabs_pos; assumption). lra.
Qed.
Lemma near_mul x y r s B C e f : near x r e -> near y s f -> Rabs r <= B -> Rabs s <= C -> 0 <= e <= 1 -> 0 <= f <= 1 -> B <= 100000000 -> C <= 1000000000 ->
  near (d_mul x y) (r * s) ((B + e) * f + C * e + u64 * ((B + e) * (C + f)) + eta64).
Proof.
  intros Hx Hy Hr Hs He Hf HB HC. pose proof (near_abs _ _ _ _ Hx Hr) as Ax. pose proof (near_abs _ _ _ _ Hy Hs) as Ay.
  destruct Hx as [Fx Ex]. destruct Hy as [Fy Ey]. pose proof (Rabs_pos r). pose proof (Rabs_pos s).
  assert (P : Rabs (val x * val y) <= (B + e) * (C + f)) by (rewrite Rabs_mult; apply Rmult_le_compat; try apply Rabs_pos; assumption).
  assert (Q : (B + e) * (C + f) <= 100000001 * 1000000001) by (apply Rmult_le_compat; lra).
  destruct (d_mul_spec x y Fx Fy) as [V F]; [unfold big; lra|]. split; [exact F|]. rewrite V.
  pose proof (rnd_abs _ _ P) as R1.
  replace (rnd64 (val x * val y) - r * s) with ((rnd64 (val x * val y) - val x * val y) + (val x * (val y - s) + s * (val x - r))) by ring.
  eapply Rle_trans; [apply Rabs_triang|]. pose proof (Rabs_triang (val x * (val y - s)) (s * (val x - r))) as T. rewrite !Rabs_mult in T.
  assert (Rabs (val x) * Rabs (val y - s) <= (B + e) * f) by (apply Rmult_le_compat; try apply Rabs_pos; assumption).
  assert (Rabs s * Rabs (val x - r) <= C * e) by (apply Rmult_le_compat; try apply Rabs_pos; assumption). lra.
Qed.
Lemma near_sub x y r s B C e f : near x r e -> near y s f -> Rabs r <= B -> Rabs s <= C -> 0 <= e <= 1 -> 0 <= f <= 1 -> B <= 1000000 -> C <= 1000000 ->
  near (d_sub x y) (r - s) (e + f + u64 * (B + C + e + f) + eta64).
Proof.
  intros Hx Hy Hr Hs He Hf HB HC. pose proof (near_abs _ _ _ _ Hx Hr) as Ax. pose proof (near_abs _ _ _ _ Hy Hs) as Ay.
  destruct Hx as [Fx Ex]. destruct Hy as [Fy Ey].
  assert (P : Rabs (val x - val y) <= B + C + e + f) by (unfold Rminus; eapply Rle_trans; [apply Rabs_triang|]; rewrite Rabs_Ropp; lra).
  destruct (sub_full x y Fx Fy) as (V & F & _); [unfold big; lra|]. split; [exact F|]. rewrite V. pose proof (rnd_abs _ _ P) as R1.
  replace (rnd64 (val x - val y) - (r - s)) with ((rnd64 (val x - val y) - (val x - val y)) + ((val x - r) + - (val y - s))) by ring.
  eapply Rle_trans; [apply Rabs_triang|]. pose proof (Rabs_triang (val x - r) (- (val y - s))) as T. rewrite Rabs_Ropp in T. lra.
Qed.
Lemma add_spec x y : fin x = true -> fin y = true -> Rabs (val x + val y) <= big -> val (d_add x y) = rnd64 (val x + val y) /\ fin (d_add x y) = true.
Proof.
  intros Fx Fy H.
  pose proof (Binary.Bplus_correct 53 1024 (eq_refl : FLX.Prec_gt_0 53) (eq_refl : BinarySingleNaN.Prec_lt_emax 53 1024) binop_nan_pl64 mode_NE x y Fx Fy) as C.
  rewrite fexp_eq in C. cbn [round_mode] in C. rewrite rnd64_lt in C by exact H. destruct C as (C1 & C2 & _). split; assumption.
Qed.
Lemma sqrt_spec x : fin x = true -> 0 <= val x -> val (d_sqrt x) = rnd64 (sqrt (val x)) /\ fin (d_sqrt x) = true.
Proof.
  intros F P.
  pose proof (Binary.Bsqrt_correct 53 1024 (eq_refl : FLX.Prec_gt_0 53) (eq_refl : BinarySingleNaN.Prec_lt_emax 53 1024) unop_nan_pl64 mode_NE x) as C.
  rewrite fexp_eq in C. cbn [round_mode] in C. destruct C as (C1 & C2 & _). split; [exact C1|]. change (fin (d_sqrt x) = true). unfold d_sqrt, b64_sqrt. rewrite C2.
  destruct x as [s|s|s pl|s m e B]; try discriminate; [reflexivity|]. destruct s; [|reflexivity]. exfalso.
  cbn [Binary.B2R] in P. assert (F2R (Float radix2 (cond_Zopp true (Zpos m)) e) < 0) by (apply F2R_lt_0; reflexivity). lra.
Qed.
Lemma rnd_nonneg v : 0 <= v -> 0 <= rnd64 v.
Proof. intros H. apply round_ge_generic; [apply FLT_exp_valid; reflexivity|apply valid_rnd_N|apply generic_format_0|exact H]. Qed.

(* ---- the steps ---- *)
Definition t : R := / 1000000000000000.
Ltac consts := unfold t, u64, eta64 in *; lra.
Lemma near_coord c r k : (Z.abs c <= k)%Z -> (k <= 2147483648)%Z -> r = IZR c / 10000000 -> near (fix_to_double c) r (u64 * (IZR k / 10000000) + eta64).
Proof.
  intros H K ->. destruct (fix_to_double_err c ltac:(lia)) as (e & h & He & Hh & V & F). split; [exact F|]. rewrite V.
  replace (IZR c / 10000000 * (1 + e) + h - IZR c / 10000000) with (e * (IZR c / 10000000) + h) by ring.
  eapply Rle_trans; [apply Rabs_triang|]. rewrite Rabs_mult.
  assert (Rabs (IZR c / 10000000) <= IZR k / 10000000).
  { unfold Rdiv. rewrite Rabs_mult, (Rabs_pos_eq (/ 10000000)) by lra. apply Rmult_le_compat_r; [lra|]. rewrite <- abs_IZR. apply IZR_le, H. }
  assert (Rabs e * Rabs (IZR c / 10000000) <= u64 * (IZR k / 10000000)) by (apply Rmult_le_compat; try apply Rabs_pos; assumption). lra.
Qed.
Lemma lon_near p : on_earth p -> near (pos_lon p) (r_lon p) (20 * t) /\ Rabs (r_lon p) <= 180.
Proof.
  intros [H _]. split; [eapply near_le; [apply (near_coord (px p) (r_lon p) 1800000000 H); [lia|reflexivity]|consts]|].
  unfold r_lon, coordinate_precision, Rdiv. rewrite Rabs_mult, (Rabs_pos_eq (/ 10000000)) by lra. rewrite <- abs_IZR. apply IZR_le in H. lra.
Qed.
Lemma lat_near p : on_earth p -> near (pos_lat p) (r_lat p) (10 * t) /\ Rabs (r_lat p) <= 90.
Proof.
  intros [_ H]. split; [eapply near_le; [apply (near_coord (py p) (r_lat p) 900000000 H); [lia|reflexivity]|consts]|].
  unfold r_lat, coordinate_precision, Rdiv. rewrite Rabs_mult, (Rabs_pos_eq (/ 10000000)) by lra. rewrite <- abs_IZR. apply IZR_le in H. lra.
Qed.
Lemma deg_near : near d_deg_to_rad r_deg_to_rad (/ 576460752303423488) /\ Rabs r_deg_to_rad <= 0.0175.
Proof.
  destruct double_constants as (E & _). split; [split; [reflexivity|]|unfold r_deg_to_rad; rewrite Rabs_pos_eq; lra].
  eapply Rle_trans; [exact E|]. right. replace (2 ^ 59) with (IZR (2 ^ 59)) by (rewrite (pow_IZR 2 59); reflexivity). reflexivity.
Qed.
Lemma half_near : near d_half (/ 2) 0.
Proof. destruct double_constants as (_ & _ & E & _). split; [reflexivity|]. change (val d_half) with (d_val d_half). rewrite E. rewrite Rminus_diag_eq by reflexivity. rewrite Rabs_R0. lra. Qed.
Lemma two52 : / 2 ^ 52 = / 4503599627370496.
Proof. replace (2 ^ 52) with (IZR (2 ^ 52)) by (rewrite (pow_IZR 2 52); reflexivity). reflexivity. Qed.
Lemma two100 : / 2 ^ 100 = eta64.
Proof. replace (2 ^ 100) with (IZR (2 ^ 100)) by (rewrite (pow_IZR 2 100); reflexivity). reflexivity. Qed.
Lemma near_fun lim f g x r e : accurate lim f g -> (forall a b, Rabs (g a - g b) <= Rabs (a - b)) -> (forall a, Rabs (g a) <= 1) ->
  near x r e -> Rabs r + e <= lim -> near (f x) (g r) (e + / 4503599627370496 + eta64).
Proof.
  intros A L B Hx Hr. pose proof (near_abs _ _ _ _ Hx (Rle_refl _)) as Ax. destruct Hx as [F E]. destruct (A x F ltac:(unfold d_val; lra)) as [Ff Ef].
  split; [exact Ff|]. rewrite two52, two100 in Ef. unfold d_val in Ef.
  replace (val (f x) - g r) with ((val (f x) - g (val x)) + (g (val x) - g r)) by ring. eapply Rle_trans; [apply Rabs_triang|].
  pose proof (L (val x) r). pose proof (B (val x)).
  assert (/ 4503599627370496 * Rabs (g (val x)) <= / 4503599627370496 * 1) by (apply Rmult_le_compat_l; lra). lra.
Qed.
Lemma arc_sin dsin x1 x2 r1 r2 e B : accurate 4 dsin sin -> near x1 r1 e -> near x2 r2 e -> Rabs r1 <= B -> Rabs r2 <= B -> B <= 180 -> 0 <= e <= 20 * t ->
  near (dsin (d_mul (d_mul (d_sub x1 x2) d_deg_to_rad) d_half)) (sin ((r1 - r2) * r_deg_to_rad * / 2)) (2.1 * t).
Proof.
  intros A H1 H2 B1 B2 HB He. pose proof (Rabs_pos r1) as Q1.
  assert (S : near (d_sub x1 x2) (r1 - r2) (81 * t)).
  { eapply near_le; [apply (near_sub x1 x2 r1 r2 180 180 e e H1 H2); try lra; unfold t in *; lra|]. consts. }
  assert (RS : Rabs (r1 - r2) <= 360) by (unfold Rminus; eapply Rle_trans; [apply Rabs_triang|]; rewrite Rabs_Ropp; lra).
  destruct deg_near as [DN DB].
  assert (M : near (d_mul (d_sub x1 x2) d_deg_to_rad) ((r1 - r2) * r_deg_to_rad) (2.9 * t)).
  { eapply near_le; [apply (near_mul _ _ _ _ 360 0.0175 _ _ S DN RS DB); unfold t; lra|]. consts. }
  assert (RM : Rabs ((r1 - r2) * r_deg_to_rad) <= 6.3) by (rewrite Rabs_mult; apply Rle_trans with (360 * 0.0175); [apply Rmult_le_compat; try apply Rabs_pos; assumption|lra]).
  assert (H : near (d_mul (d_mul (d_sub x1 x2) d_deg_to_rad) d_half) ((r1 - r2) * r_deg_to_rad * / 2) (1.85 * t)).
  { eapply near_le; [apply (near_mul _ _ _ _ 6.3 (/ 2) _ _ M half_near RM); [rewrite Rabs_pos_eq; lra|..]; unfold t; lra|]. consts. }
  eapply near_le; [apply (near_fun 4 dsin sin _ _ _ A sin_lip abs_sin_1 H)|consts].
  rewrite (Rabs_mult _ (/ 2)), (Rabs_pos_eq (/ 2)) by lra. unfold t. lra.
Qed.
(** the greatest argument of the cosine *)
Lemma pole : val (d_mul (d_of_Z 90) d_deg_to_rad) <= PI / 2 - / 20000000000000000.
Proof.
  assert (E : val (d_mul (d_of_Z 90) d_deg_to_rad) = IZR 7074237752028440 * / IZR (2 ^ 52)) by (vm_compute; reflexivity).
  rewrite E. change (2 ^ 52)%Z with 4503599627370496%Z. pose proof pi_bounds as [L _]. unfold r_deg_to_rad in L. lra.
Qed.
Lemma lat_cos dcos p : accurate 4 dcos cos -> on_earth p ->
  near (dcos (d_mul (pos_lat p) d_deg_to_rad)) (cos (r_lat p * r_deg_to_rad)) (0.8 * t) /\
  0 <= val (dcos (d_mul (pos_lat p) d_deg_to_rad)) /\ 0 <= cos (r_lat p * r_deg_to_rad) <= 1.
Proof.
  intros A O. destruct (lat_near p O) as [LN LB]. destruct deg_near as [DN DB].
  assert (M : near (d_mul (pos_lat p) d_deg_to_rad) (r_lat p * r_deg_to_rad) (0.53 * t)).
  { eapply near_le; [apply (near_mul _ _ _ _ 90 0.0175 _ _ LN DN LB DB); unfold t; lra|]. consts. }
  assert (RM : Rabs (r_lat p * r_deg_to_rad) <= 1.6) by (rewrite Rabs_mult; apply Rle_trans with (90 * 0.0175); [apply Rmult_le_compat; try apply Rabs_pos; assumption|lra]).
  split; [eapply near_le; [apply (near_fun 4 dcos cos _ _ _ A cos_lip abs_cos_1 M); unfold t; lra|consts]|].
  pose proof pi_bounds as PB. split.
  - assert (X : Rabs (val (d_mul (pos_lat p) d_deg_to_rad)) <= val (d_mul (d_of_Z 90) d_deg_to_rad)).
    { destruct (d_of_Z_spec 90 ltac:(lia)) as [V90 F90]. destruct deg_facts as [Fd Pd].
      assert (XL : Rabs (val (pos_lat p)) <= 90).
      { unfold pos_lat, fix_to_double. destruct (d_of_Z_spec (py p)) as [Vy Fy]; [destruct O; lia|]. destruct (d_of_Z_spec coordinate_precision) as [Vc Fc]; [unfold coordinate_precision; lia|].
        assert (Q : Rabs (val (d_of_Z (py p)) / val (d_of_Z coordinate_precision)) <= 90).
        { rewrite Vy, Vc. exact LB. }
        destruct (d_div_spec (d_of_Z (py p)) (d_of_Z coordinate_precision) Fy) as [V _]; [rewrite Vc; unfold coordinate_precision; lra|unfold big; lra|].
        rewrite V. apply abs_round_le_generic; [apply FLT_exp_valid; reflexivity|apply valid_rnd_N| |exact Q].
        rewrite <- V90. apply generic_format_B2R. }
      assert (XM : Rabs (val (pos_lat p) * val d_deg_to_rad) <= 90 * val d_deg_to_rad).
      { rewrite Rabs_mult, (Rabs_pos_eq (val d_deg_to_rad)) by lra. apply Rmult_le_compat_r; lra. }
      destruct (d_mul_spec (pos_lat p) d_deg_to_rad (proj1 LN) Fd) as [V1 _]; [unfold big; lra|].
      destruct (d_mul_spec (d_of_Z 90) d_deg_to_rad F90 Fd) as [V2 _]; [rewrite V90, Rabs_pos_eq; unfold big; lra|].
      rewrite V1, V2, V90. rewrite <- round_NE_abs; [apply round_le; [apply FLT_exp_valid; reflexivity|apply valid_rnd_N|exact XM]|first [apply FLT_exp_valid; reflexivity|apply exists_NE_FLT; right; reflexivity]]. }
    pose proof pole as PO. set (P := val (d_mul (d_of_Z 90) d_deg_to_rad)) in *. set (x := val (d_mul (pos_lat p) d_deg_to_rad)) in *.
    assert (C : / 20200000000000000 <= cos x).
    { replace (cos x) with (cos (Rabs x)) by (unfold Rabs; destruct (Rcase_abs x); [apply cos_neg|reflexivity]).
      apply Rle_trans with (sin (/ 20000000000000000)).
      - assert (/ 20000000000000000 <= 1.01 * sin (/ 20000000000000000)) by (apply sin_ge_small; lra). lra.
      - rewrite <- cos_shift. pose proof (Rabs_pos x). apply cos_decr_1; lra. }
    assert (XB : Rabs x <= 4).
    { pose proof (near_abs _ _ _ _ M RM) as Q. fold x in Q. unfold t in Q. lra. }
    destruct (A _ (proj1 M) XB) as [_ Ec]. unfold d_val in Ec. fold x in Ec. rewrite two52, two100 in Ec. apply abs_bounds in Ec.
    rewrite (Rabs_pos_eq (cos x)) in Ec by lra. pose proof (COS_bound x). consts.
  - split; [|apply COS_bound]. assert (Q : Rabs (r_lat p * r_deg_to_rad) <= PI / 2).
    { rewrite Rabs_mult, (Rabs_pos_eq r_deg_to_rad) by (unfold r_deg_to_rad; lra). apply Rle_trans with (90 * r_deg_to_rad); [apply Rmult_le_compat_r; [unfold r_deg_to_rad; lra|exact LB]|lra]. }
    apply abs_bounds in Q. apply cos_ge_0; lra.
Qed.
Lemma prod_range a b A B : 0 <= a <= A -> 0 <= b <= B -> 0 <= a * b <= A * B.
Proof. intros Ha Hb. split; [apply Rmult_le_pos; lra|apply Rmult_le_compat; lra]. Qed.
Lemma prod_sym a b A B : - A <= a <= A -> - B <= b <= B -> - (A * B) <= a * b <= A * B.
Proof.
  intros Ha Hb. assert (H : Rabs (a * b) <= A * B) by (rewrite Rabs_mult; apply Rmult_le_compat; try apply Rabs_pos; apply Rabs_le; assumption). apply abs_bounds, H.
Qed.
Lemma one_more a e V : 0 <= a <= V -> - u64 <= e <= u64 -> 0 <= a * (1 + e) <= V + V * u64.
Proof. intros Ha He. pose proof u64_small. replace (V + V * u64) with (V * (1 + u64)) by ring. apply prod_range; lra. Qed.
(** the argument of the square root, from the values it is computed of *)
Lemma hav_sum a b c d : fin a = true -> fin b = true -> fin c = true -> fin d = true ->
  Rabs (val a) <= 1.1 -> Rabs (val b) <= 1.1 -> 0 <= val c <= 1.1 -> 0 <= val d <= 1.1 ->
  let h := d_add (d_mul a a) (d_mul (d_mul c d) (d_mul b b)) in
  let k := val a * val a + val c * val d * (val b * val b) in
  fin h = true /\ 0 <= val h /\ Rabs (val h - k) <= 0.6 * t * Rabs k + 10 * (t * t).
Proof.
  intros Fa Fb Fc Fd Ba Bb Bc Bd. cbn zeta.
  assert (aa : 0 <= val a * val a <= 1.21) by (apply abs_bounds in Ba; split; [apply Rle_0_sqr|pose proof (prod_sym _ _ _ _ Ba Ba); lra]).
  assert (bb : 0 <= val b * val b <= 1.21) by (apply abs_bounds in Bb; split; [apply Rle_0_sqr|pose proof (prod_sym _ _ _ _ Bb Bb); lra]).
  assert (cd : 0 <= val c * val d <= 1.21) by (pose proof (prod_range _ _ _ _ Bc Bd); lra).
  destruct (d_mul_spec a a Fa Fa) as [Va Fa2]; [rewrite Rabs_pos_eq; unfold big; lra|].
  destruct (d_mul_spec b b Fb Fb) as [Vb Fb2]; [rewrite Rabs_pos_eq; unfold big; lra|].
  destruct (d_mul_spec c d Fc Fd) as [Vc Fc2]; [rewrite Rabs_pos_eq; unfold big; lra|].
  pose proof (rnd_nonneg _ (proj1 aa)) as Pa. pose proof (rnd_nonneg _ (proj1 bb)) as Pb. pose proof (rnd_nonneg _ (proj1 cd)) as Pc.
  destruct (rnd64_error (val a * val a)) as (e1 & h1 & He1 & Hh1 & R1).
  destruct (rnd64_error (val b * val b)) as (e2 & h2 & He2 & Hh2 & R2).
  destruct (rnd64_error (val c * val d)) as (e3 & h3 & He3 & Hh3 & R3).
  set (aa' := val a * val a) in *. set (bb' := val b * val b) in *. set (cd' := val c * val d) in *.
  apply abs_bounds in He1, He2, He3, Hh1, Hh2, Hh3. pose proof u64_small as U. pose proof eta64_small as T.
  assert (Ua : rnd64 aa' <= 1.3) by (rewrite R1; pose proof (one_more _ _ _ aa He1); lra).
  assert (Ub : rnd64 bb' <= 1.3) by (rewrite R2; pose proof (one_more _ _ _ bb He2); lra).
  assert (Uc : rnd64 cd' <= 1.3) by (rewrite R3; pose proof (one_more _ _ _ cd He3); lra).
  assert (P4 : 0 <= rnd64 cd' * rnd64 bb' <= 1.69) by (pose proof (prod_range _ _ _ _ (conj Pc Uc) (conj Pb Ub)); lra).
  destruct (d_mul_spec (d_mul c d) (d_mul b b) Fc2 Fb2) as [Vp Fp]; [rewrite Vc, Vb, Rabs_pos_eq; unfold big; lra|]. rewrite Vc, Vb in Vp.
  pose proof (rnd_nonneg _ (proj1 P4)) as Pp.
  destruct (rnd64_error (rnd64 cd' * rnd64 bb')) as (e4 & h4 & He4 & Hh4 & R4). apply abs_bounds in He4, Hh4.
  assert (Up : rnd64 (rnd64 cd' * rnd64 bb') <= 1.8) by (rewrite R4; pose proof (one_more _ _ _ P4 He4); lra).
  destruct (add_spec (d_mul a a) (d_mul (d_mul c d) (d_mul b b)) Fa2 Fp) as [Vs Fs]; [rewrite Va, Vp, Rabs_pos_eq; unfold big; lra|]. rewrite Va, Vp in Vs.
  split; [exact Fs|]. rewrite Vs. split; [apply rnd_nonneg; lra|].
  destruct (rnd64_error (rnd64 aa' + rnd64 (rnd64 cd' * rnd64 bb'))) as (e5 & h5 & He5 & Hh5 & R5). apply abs_bounds in He5, Hh5.
  rewrite R5, R4, R1, R2, R3. 
  assert (Pq : 0 <= cd' * bb' <= 1.4641) by (pose proof (prod_range _ _ _ _ cd bb); lra). set (q := cd' * bb') in *.
  rewrite (Rabs_pos_eq (aa' + q)) by lra.
  set (y := cd' * (1 + e3) * h2 + h3 * (bb' * (1 + e2) + h2)).
  assert (Hy : Rabs y <= 2.6 * eta64).
  { unfold y. eapply Rle_trans; [apply Rabs_triang|]. rewrite !Rabs_mult.
    assert (Rabs cd' * Rabs (1 + e3) <= 1.25) by (rewrite (Rabs_pos_eq cd'), (Rabs_pos_eq (1 + e3)) by lra; pose proof (one_more _ _ _ cd He3); lra).
    assert (Rabs h2 <= eta64) by (apply Rabs_le; lra). assert (Rabs h3 <= eta64) by (apply Rabs_le; lra).
    assert (Rabs (bb' * (1 + e2) + h2) <= 1.25) by (rewrite <- R2, Rabs_pos_eq; [rewrite R2; pose proof (one_more _ _ _ bb He2); lra|exact Pb]).
    assert (Rabs cd' * Rabs (1 + e3) * Rabs h2 <= 1.25 * eta64) by (apply Rmult_le_compat; try apply Rabs_pos; try assumption; apply Rmult_le_pos; apply Rabs_pos).
    assert (Rabs h3 * Rabs (bb' * (1 + e2) + h2) <= eta64 * 1.25) by (apply Rmult_le_compat; try apply Rabs_pos; assumption). lra. }
  apply abs_bounds in Hy.
  set (tp := (1 + e1) * (1 + e5) - 1). set (tq := (1 + e2) * (1 + e3) * (1 + e4) * (1 + e5) - 1).
  assert (Htp : Rabs tp <= 0.5 * t).
  { unfold tp. replace ((1 + e1) * (1 + e5) - 1) with (e1 + e5 + e1 * e5) by ring. apply Rabs_le. assert (- (u64 * u64) <= e1 * e5 <= u64 * u64) by (apply prod_sym; assumption).
    unfold t, u64 in *. lra. }
  assert (Htq : Rabs tq <= 0.5 * t).
  { unfold tq. set (f := (1 + e2) * (1 + e3) - 1). set (g := (1 + e4) * (1 + e5) - 1).
    assert (Ff : - (0.23 * t) <= f <= 0.23 * t). { unfold f. replace ((1 + e2) * (1 + e3) - 1) with (e2 + e3 + e2 * e3) by ring. assert (- (u64 * u64) <= e2 * e3 <= u64 * u64) by (apply prod_sym; assumption). unfold t, u64 in *. lra. }
    assert (Fg : - (0.23 * t) <= g <= 0.23 * t). { unfold g. replace ((1 + e4) * (1 + e5) - 1) with (e4 + e5 + e4 * e5) by ring. assert (- (u64 * u64) <= e4 * e5 <= u64 * u64) by (apply prod_sym; assumption). unfold t, u64 in *. lra. }
    replace ((1 + e2) * (1 + e3) * (1 + e4) * (1 + e5) - 1) with (f + g + f * g) by (unfold f, g; ring).
    assert (- (0.23 * t * (0.23 * t)) <= f * g <= 0.23 * t * (0.23 * t)) by (apply prod_sym; assumption). apply Rabs_le. unfold t in *. lra. }
  set (z := h1 * (1 + e5) + (y * (1 + e4) + h4) * (1 + e5) + h5).
  assert (Hz : Rabs z <= 6 * eta64).
  { unfold z. assert (1 - u64 <= 1 + e5 <= 1 + u64) by lra.
    assert (Rabs (h1 * (1 + e5)) <= 1.1 * eta64) by (rewrite Rabs_mult, (Rabs_pos_eq (1 + e5)), Rmult_comm by lra; apply Rmult_le_compat; try apply Rabs_pos; [lra|lra|apply Rabs_le; lra]).
    assert (Y2 : Rabs (y * (1 + e4)) <= 2.7 * eta64).
    { rewrite Rabs_mult, (Rabs_pos_eq (1 + e4)) by lra. apply Rle_trans with (2.6 * eta64 * (1 + u64)); [apply Rmult_le_compat; try apply Rabs_pos; [lra|apply Rabs_le; lra|lra]|unfold u64, eta64; lra]. }
    assert (Y3 : Rabs (y * (1 + e4) + h4) <= 3.7 * eta64) by (eapply Rle_trans; [apply Rabs_triang|]; assert (Rabs h4 <= eta64) by (apply Rabs_le; lra); lra).
    assert (Y4 : Rabs ((y * (1 + e4) + h4) * (1 + e5)) <= 3.8 * eta64).
    { rewrite Rabs_mult, (Rabs_pos_eq (1 + e5)) by lra. apply Rle_trans with (3.7 * eta64 * (1 + u64)); [apply Rmult_le_compat; try apply Rabs_pos; lra|unfold u64, eta64; lra]. }
    assert (Rabs h5 <= eta64) by (apply Rabs_le; lra).
    eapply Rle_trans; [apply Rabs_triang|]. pose proof (Rabs_triang (h1 * (1 + e5)) ((y * (1 + e4) + h4) * (1 + e5))). lra. }
  replace ((aa' * (1 + e1) + h1 + ((cd' * (1 + e3) + h3) * (bb' * (1 + e2) + h2) * (1 + e4) + h4)) * (1 + e5) + h5 - (aa' + q)) with (tp * aa' + tq * q + z) by (unfold tp, tq, z, y, q; ring).
  eapply Rle_trans; [apply Rabs_triang|]. pose proof (Rabs_triang (tp * aa') (tq * q)) as TT. rewrite !Rabs_mult, (Rabs_pos_eq aa'), (Rabs_pos_eq q) in TT by lra.
  assert (Rabs tp * aa' <= 0.5 * t * aa') by (apply Rmult_le_compat_r; lra). assert (Rabs tq * q <= 0.5 * t * q) by (apply Rmult_le_compat_r; lra).
  assert (0 < t) by (unfold t; lra). assert (0 <= t * aa') by (apply Rmult_le_pos; lra). assert (0 <= t * q) by (apply Rmult_le_pos; lra).
  assert (6 * eta64 <= 10 * (t * t)) by (unfold eta64, t; lra). lra.
Qed.
