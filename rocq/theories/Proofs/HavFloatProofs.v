(** Proofs about Model/Haversine.v with doubles. *)
From Coq Require Import Reals Lra.
From Flocq Require Import Core IEEE754.BinarySingleNaN IEEE754.Binary IEEE754.Bits.
From Verif Require Import Base.Prelude Model.Osm Model.Float Model.Haversine Spec.HaversineSpec Proofs.FloatProofs.
Local Open Scope R_scope.

Notation sgn x := (Binary.Bsign 53 1024 x).
Lemma fin_not_nan x : fin x = true -> Binary.is_nan 53 1024 x = false.
Proof. destruct x; auto; discriminate. Qed.
Lemma mul_full x y : fin x = true -> fin y = true -> Rabs (val x * val y) <= big ->
  val (d_mul x y) = rnd64 (val x * val y) /\ fin (d_mul x y) = true /\ sgn (d_mul x y) = xorb (sgn x) (sgn y).
Proof.
  intros Fx Fy H. destruct (d_mul_spec x y Fx Fy H) as [V F]. split; auto. split; auto.
  pose proof (Binary.Bmult_correct 53 1024 (eq_refl : FLX.Prec_gt_0 53) (eq_refl : BinarySingleNaN.Prec_lt_emax 53 1024) binop_nan_pl64 mode_NE x y) as C.
  rewrite fexp_eq in C. cbn [round_mode] in C. rewrite rnd64_lt in C by exact H. destruct C as (_ & _ & C). apply C. now apply fin_not_nan.
Qed.
Lemma same_double x y : fin x = true -> fin y = true -> val x = val y -> sgn x = sgn y -> x = y.
Proof. apply Binary.B2R_Bsign_inj. Qed.
Lemma mul_comm x y : fin x = true -> fin y = true -> Rabs (val x * val y) <= big -> d_mul x y = d_mul y x.
Proof.
  intros Fx Fy H. destruct (mul_full x y Fx Fy H) as (V1 & F1 & S1). rewrite Rmult_comm in H. destruct (mul_full y x Fy Fx H) as (V2 & F2 & S2).
  apply same_double; auto; [rewrite V1, V2; f_equal; ring|rewrite S1, S2; apply xorb_comm].
Qed.
Lemma opp_facts x : fin x = true -> fin (d_opp x) = true /\ val (d_opp x) = - val x /\ sgn (d_opp x) = negb (sgn x).
Proof.
  intros F. unfold d_opp, b64_opp. split; [now rewrite Binary.is_finite_Bopp|]. split; [apply Binary.B2R_Bopp|]. apply Binary.Bsign_Bopp. now apply fin_not_nan.
Qed.
Lemma mul_opp_opp x : fin x = true -> Rabs (val x * val x) <= big -> d_mul (d_opp x) (d_opp x) = d_mul x x.
Proof.
  intros F H. destruct (opp_facts x F) as (Fo & Vo & So). assert (H' : Rabs (val (d_opp x) * val (d_opp x)) <= big) by (rewrite Vo; replace (- val x * - val x) with (val x * val x) by ring; exact H).
  destruct (mul_full x x F F H) as (V1 & F1 & S1). destruct (mul_full _ _ Fo Fo H') as (V2 & F2 & S2).
  apply same_double; auto; [rewrite V1, V2, Vo; f_equal; ring|]. rewrite S1, S2, So. now destruct (sgn x).
Qed.
Lemma rnd64_opp r : rnd64 (- r) = - rnd64 r.
Proof. apply round_NE_opp. Qed.
Lemma mul_opp_l x y : fin x = true -> fin y = true -> Rabs (val x * val y) <= big -> d_mul (d_opp x) y = d_opp (d_mul x y).
Proof.
  intros Fx Fy H. destruct (opp_facts x Fx) as (Fo & Vo & So). destruct (mul_full x y Fx Fy H) as (V1 & F1 & S1).
  assert (H' : Rabs (val (d_opp x) * val y) <= big) by (rewrite Vo; replace (- val x * val y) with (- (val x * val y)) by ring; now rewrite Rabs_Ropp).
  destruct (mul_full _ y Fo Fy H') as (V2 & F2 & S2). destruct (opp_facts _ F1) as (F3 & V3 & S3).
  apply same_double; auto.
  - rewrite V2, V3, V1, Vo. replace (- val x * val y) with (- (val x * val y)) by ring. apply rnd64_opp.
  - rewrite S2, S3, S1, So. now destruct (sgn x), (sgn y).
Qed.
Lemma sub_full x y : fin x = true -> fin y = true -> Rabs (val x - val y) <= big ->
  val (d_sub x y) = rnd64 (val x - val y) /\ fin (d_sub x y) = true /\
  sgn (d_sub x y) = match Rcompare (val x - val y) 0 with Eq => sgn x && negb (sgn y) | Lt => true | Gt => false end.
Proof.
  intros Fx Fy H.
  pose proof (Binary.Bminus_correct 53 1024 (eq_refl : FLX.Prec_gt_0 53) (eq_refl : BinarySingleNaN.Prec_lt_emax 53 1024) binop_nan_pl64 mode_NE x y Fx Fy) as C.
  rewrite fexp_eq in C. cbn [round_mode] in C. rewrite rnd64_lt in C by exact H. exact C.
Qed.
Lemma nz_strict z : fin z = true -> val z <> 0 -> Binary.is_finite_strict 53 1024 z = true.
Proof. intros F N. destruct z; auto; cbn in *; congruence. Qed.
Lemma sub_sym x y : fin x = true -> fin y = true -> Rabs (val x - val y) <= big ->
  d_sub y x = d_sub x y \/ d_sub y x = d_opp (d_sub x y).
Proof.
  intros Fx Fy H. assert (H' : Rabs (val y - val x) <= big) by (rewrite Rabs_minus_sym; exact H).
  destruct (sub_full x y Fx Fy H) as (V1 & F1 & _). destruct (sub_full y x Fy Fx H') as (V2 & F2 & _). destruct (opp_facts _ F1) as (F3 & V3 & S3).
  assert (E : val (d_sub y x) = - val (d_sub x y)) by (rewrite V2, V1, <- rnd64_opp; f_equal; ring).
  destruct (Req_dec (val (d_sub x y)) 0) as [Z|N].
  - assert (Z2 : val (d_sub y x) = 0) by lra. destruct (Bool.bool_dec (sgn (d_sub y x)) (sgn (d_sub x y))) as [S|S].
    + left. apply same_double; auto. lra.
    + right. apply same_double; auto; [lra|]. rewrite S3. revert S. destruct (sgn (d_sub y x)), (sgn (d_sub x y)); cbn; congruence.
  - right. apply Binary.B2R_inj; [| |rewrite V3; exact E].
    + apply nz_strict; auto. lra.
    + apply nz_strict; auto. lra.
Qed.
Lemma sub_same x : fin x = true -> d_sub x x = d_zero.
Proof.
  intros F. assert (E : val x - val x = 0) by ring. destruct (sub_full x x F F) as (V & Fs & S); [rewrite E, Rabs_R0; unfold big; lra|].
  rewrite E in *. rewrite Rcompare_Eq in S by reflexivity. apply same_double; auto.
  - rewrite V, round_0 by apply valid_rnd_N. reflexivity.
  - rewrite S. now destruct (sgn x).
Qed.

Lemma const_bounds c : fin c = true -> b64_compare c (d_of_Z 1) = Some Lt -> b64_compare c d_zero = Some Gt -> 0 < val c < 1.
Proof.
  intros F C1 C2. pose proof (Binary.Bcompare_correct 53 1024 c (d_of_Z 1) F eq_refl) as K1. pose proof (Binary.Bcompare_correct 53 1024 c d_zero F eq_refl) as K2.
  unfold b64_compare in *. rewrite C1 in K1. rewrite C2 in K2.
  assert (L1 : Rcompare (val c) (val (d_of_Z 1)) = Lt) by congruence. assert (L2 : Rcompare (val c) (val d_zero) = Gt) by congruence.
  apply Rcompare_Lt_inv in L1. apply Rcompare_Gt_inv in L2. rewrite (proj1 (d_of_Z_spec 1 ltac:(lia))) in L1. unfold d_zero in L2. rewrite (proj1 (d_of_Z_spec 0 ltac:(lia))) in L2. lra.
Qed.
Lemma deg_facts : fin d_deg_to_rad = true /\ 0 < val d_deg_to_rad < 1.
Proof. assert (F : fin d_deg_to_rad = true) by reflexivity. split; auto. apply const_bounds; auto; vm_compute; reflexivity. Qed.
Lemma half_facts : fin d_half = true /\ 0 < val d_half < 1.
Proof. assert (F : fin d_half = true) by reflexivity. split; auto. apply const_bounds; auto; vm_compute; reflexivity. Qed.

Lemma coord_bound c : in_i32 c -> fin (fix_to_double c) = true /\ Rabs (val (fix_to_double c)) <= 1000.
Proof.
  intros H. assert (Ha : (Z.abs c <= 2147483648)%Z) by (unfold in_i32, int32_min, int32_max in H; lia).
  destruct (fix_to_double_err c Ha) as (e & h & He & Hh & V & F). split; auto. rewrite V.
  pose proof u64_small. pose proof eta64_small. pose proof (Rabs_IZR_le _ _ Ha) as Hc.
  eapply Rle_trans; [apply Rabs_triang|].
  assert (K1 : Rabs (1 + e) <= 2) by (eapply Rle_trans; [apply Rabs_triang|]; rewrite Rabs_R1; lra).
  assert (K2 : Rabs (IZR c / 10000000) <= 300).
  { unfold Rdiv. rewrite Rabs_mult, (Rabs_pos_eq (/ 10000000)) by lra. lra. }
  pose proof (Rabs_le_mult _ _ _ _ K2 K1). lra.
Qed.
(** a product with a constant below one *)
Lemma mul_small x c B : fin x = true -> fin c = true -> Rabs (val x) <= B -> B <= 1000000 -> 0 < val c < 1 ->
  fin (d_mul x c) = true /\ Rabs (val (d_mul x c)) <= 2 * B + 1 /\ Rabs (val x * val c) <= big.
Proof.
  intros Fx Fc Hx HB Hc. assert (Hc' : Rabs (val c) <= 1) by (rewrite Rabs_pos_eq; lra).
  pose proof (Rabs_le_mult _ _ _ _ Hx Hc') as P. assert (P' : Rabs (val x * val c) <= big) by (unfold big; lra).
  destruct (d_mul_err x c Fx Fc P') as (e & h & He & Hh & V & F). split; auto. split; auto. rewrite V.
  pose proof u64_small. pose proof eta64_small.
  assert (K1 : Rabs (1 + e) <= 2) by (eapply Rle_trans; [apply Rabs_triang|]; rewrite Rabs_R1; lra).
  pose proof (Rabs_le_mult _ _ _ _ P K1). eapply Rle_trans; [apply Rabs_triang|]. lra.
Qed.

Section Sym.
  Variables (dsin dcos dasin : double -> double).
  Hypothesis Bsin : bounded_by_one dsin.
  Hypothesis Osin : odd_function dsin.
  Hypothesis Bcos : bounded_by_one dcos.

  Definition hsq (s : double) : double := let l := dsin (d_mul (d_mul s d_deg_to_rad) d_half) in d_mul l l.
  Lemma hsq_opp s : fin s = true -> Rabs (val s) <= 10000 -> hsq (d_opp s) = hsq s.
  Proof.
    intros F H. unfold hsq. destruct deg_facts as [Fd Hd]. destruct half_facts as [Fh Hh].
    destruct (mul_small s d_deg_to_rad _ F Fd H ltac:(lra) Hd) as (F1 & B1 & P1).
    destruct (mul_small _ d_half _ F1 Fh B1 ltac:(lra) Hh) as (F2 & _ & P2).
    rewrite mul_opp_l by auto. rewrite mul_opp_l by auto. rewrite Osin by exact F2. cbn zeta.
    destruct (Bsin _ F2) as [Fs Bs]. apply mul_opp_opp; auto. pose proof (Rabs_le_mult _ _ _ _ Bs Bs). unfold d_val, big in *. lra.
  Qed.
  Lemma hsq_sym x y : fin x = true -> fin y = true -> Rabs (val x) <= 1000 -> Rabs (val y) <= 1000 -> hsq (d_sub y x) = hsq (d_sub x y).
  Proof.
    intros Fx Fy Bx By.
    assert (H : Rabs (val x - val y) <= 2000) by (unfold Rminus; eapply Rle_trans; [apply Rabs_triang|]; rewrite Rabs_Ropp; lra).
    assert (H' : Rabs (val x - val y) <= big) by (unfold big; lra).
    destruct (sub_sym x y Fx Fy H') as [->| ->]; auto. destruct (sub_full x y Fx Fy H') as (V & F & _).
    apply hsq_opp; auto. rewrite V. destruct (rnd64_error (val x - val y)) as (e & h & He & Hh & ->).
    pose proof u64_small. pose proof eta64_small.
    assert (K1 : Rabs (1 + e) <= 2) by (eapply Rle_trans; [apply Rabs_triang|]; rewrite Rabs_R1; lra).
    pose proof (Rabs_le_mult _ _ _ _ H K1). eapply Rle_trans; [apply Rabs_triang|]. lra.
  Qed.
  Lemma cos_facts y : fin y = true -> Rabs (val y) <= 1000 -> fin (dcos (d_mul y d_deg_to_rad)) = true /\ Rabs (val (dcos (d_mul y d_deg_to_rad))) <= 1.
  Proof.
    intros F H. destruct deg_facts as [Fd Hd]. destruct (mul_small y d_deg_to_rad _ F Fd H ltac:(lra) Hd) as (F1 & _). apply Bcos. exact F1.
  Qed.
  Lemma distance_sym p q : legal_position p -> legal_position q -> d_distance dsin dcos dasin p q = d_distance dsin dcos dasin q p.
  Proof.
    intros [Px Py] [Qx Qy]. destruct (coord_bound _ Px) as [F1 B1]. destruct (coord_bound _ Py) as [F2 B2]. destruct (coord_bound _ Qx) as [F3 B3]. destruct (coord_bound _ Qy) as [F4 B4].
    unfold d_distance, pos_distance, hav_distance, pos_lon, pos_lat. cbn zeta.
    set (x1 := fix_to_double (px p)) in *. set (y1 := fix_to_double (py p)) in *. set (x2 := fix_to_double (px q)) in *. set (y2 := fix_to_double (py q)) in *.
    fold (hsq (d_sub x1 x2)) (hsq (d_sub y1 y2)) (hsq (d_sub x2 x1)) (hsq (d_sub y2 y1)).
    rewrite (hsq_sym x1 x2), (hsq_sym y1 y2) by auto.
    destruct (cos_facts y1 F2 B2) as [G1 C1]. destruct (cos_facts y2 F4 B4) as [G2 C2].
    rewrite (mul_comm (dcos (d_mul y1 d_deg_to_rad))); auto. pose proof (Rabs_le_mult _ _ _ _ C1 C2). unfold big. lra.
  Qed.
  Lemma distance_same p : fixes_zero dsin -> fixes_zero dasin -> legal_position p -> d_distance dsin dcos dasin p p = d_zero.
  Proof.
    intros Zs Za [Px Py]. destruct (coord_bound _ Px) as [F1 B1]. destruct (coord_bound _ Py) as [F2 B2].
    unfold d_distance, pos_distance, hav_distance, pos_lon, pos_lat. cbn zeta.
    set (x1 := fix_to_double (px p)) in *. set (y1 := fix_to_double (py p)) in *.
    destruct (cos_facts y1 F2 B2) as [G1 C1]. set (c := dcos (d_mul y1 d_deg_to_rad)) in *.
    rewrite (sub_same x1 F1), (sub_same y1 F2).
    assert (E : d_mul (d_mul d_zero d_deg_to_rad) d_half = d_zero) by (vm_compute; reflexivity). rewrite E, Zs.
    assert (E2 : d_mul d_zero d_zero = d_zero) by (vm_compute; reflexivity). rewrite E2.
    pose proof (Rabs_le_mult _ _ _ _ C1 C1) as P. destruct (mul_full c c G1 G1) as (V1 & F3 & S3); [unfold big; lra|].
    assert (T : d_mul (d_mul c c) d_zero = d_zero).
    { assert (Vz : val d_zero = 0) by reflexivity.
      destruct (mul_full (d_mul c c) d_zero F3 eq_refl) as (V4 & F4 & S4); [rewrite Vz, Rmult_0_r, Rabs_R0; unfold big; lra|].
      apply same_double; auto.
      - rewrite V4, Vz, Rmult_0_r. rewrite round_0 by apply valid_rnd_N. reflexivity.
      - rewrite S4, S3. now destruct (sgn c). }
    rewrite T. assert (E3 : d_sqrt (d_add d_zero d_zero) = d_zero) by (vm_compute; reflexivity). rewrite E3, Za. vm_compute. reflexivity.
  Qed.

  (** longer ways *)
  Lemma sum_snoc ns : forall s a b, let sum := sum_distances double d_add d_sub d_mul dsin dcos dasin d_sqrt d_half d_two d_deg_to_rad d_radius pos_lon pos_lat in
    sum s (ns ++ [a; b]) = d_add (sum s (ns ++ [a])) (d_distance dsin dcos dasin (wn_pos a) (wn_pos b)).
  Proof.
    cbn zeta. induction ns as [|x [|y r] IH]; intros s a b; [reflexivity|reflexivity|].
    cbn [app] in *. match goal with |- ?f ?s (x :: y :: ?t) = _ => change (f s (x :: y :: t)) with (f (d_add s (d_distance dsin dcos dasin (wn_pos x) (wn_pos y))) (y :: t)) end.
    rewrite IH. reflexivity.
  Qed.
  Lemma way_snoc ns a b : ns <> [] -> d_way_distance dsin dcos dasin (ns ++ [a; b]) =
    d_add (d_way_distance dsin dcos dasin (ns ++ [a])) (d_distance dsin dcos dasin (wn_pos a) (wn_pos b)).
  Proof.
    intros N. unfold d_way_distance, way_distance. rewrite !app_length. cbn [List.length].
    destruct (Nat.ltb_spec (List.length ns + 2) 2); [lia|]. destruct ns as [|x ns]; [congruence|]. cbn [List.length]. 
    destruct (Nat.ltb_spec (S (List.length ns) + 1) 2); [lia|]. apply (sum_snoc (x :: ns)).
  Qed.
End Sym.

(** a crude sin for the example *)
Definition clip (x : double) : double := match b64_compare (b64_abs x) (d_of_Z 1) with Some Lt => x | _ => d_mul x d_zero end.
Lemma mul_zero x : fin x = true -> fin (d_mul x d_zero) = true /\ val (d_mul x d_zero) = 0 /\ Rabs (val x * val d_zero) <= big.
Proof.
  intros F. assert (Z : val d_zero = 0) by reflexivity. assert (H : Rabs (val x * val d_zero) <= big) by (rewrite Z, Rmult_0_r, Rabs_R0; unfold big; lra).
  destruct (mul_full x d_zero F eq_refl H) as (V & F' & _). split; auto. split; auto. rewrite V, Z, Rmult_0_r. apply round_0, valid_rnd_N.
Qed.
Lemma clip_bounded : bounded_by_one clip.
Proof.
  intros x F. unfold clip. destruct (b64_compare (b64_abs x) (d_of_Z 1)) as [[| |]|] eqn:E; try (destruct (mul_zero x F) as (F' & V & _); split; [exact F'|unfold d_val; rewrite V, Rabs_R0; lra]).
  split; auto. pose proof (Binary.Bcompare_correct 53 1024 (b64_abs x) (d_of_Z 1)) as C. unfold b64_compare in E. rewrite E in C.
  assert (Fa : fin (b64_abs x) = true) by (unfold b64_abs; now rewrite Binary.is_finite_Babs).
  specialize (C Fa eq_refl). assert (L : Rcompare (val (b64_abs x)) (val (d_of_Z 1)) = Lt) by congruence.
  apply Rcompare_Lt_inv in L. rewrite (proj1 (d_of_Z_spec 1 ltac:(lia))) in L. unfold b64_abs in L. rewrite Binary.B2R_Babs in L. unfold d_val. lra.
Qed.
Lemma clip_odd : odd_function clip.
Proof.
  intros x F. unfold clip. assert (E : b64_abs (d_opp x) = b64_abs x).
  { destruct (opp_facts x F) as (Fo & Vo & So). apply same_double; unfold b64_abs; rewrite ?Binary.is_finite_Babs; auto.
    - rewrite !Binary.B2R_Babs. change (Rabs (val (d_opp x)) = Rabs (val x)). rewrite Vo. apply Rabs_Ropp.
    - rewrite !Binary.Bsign_Babs; auto using fin_not_nan. }
  rewrite E. destruct (b64_compare _ _) as [[| |]|]; auto; destruct (mul_zero x F) as (F' & V & H); apply mul_opp_l; auto.
Qed.

(* ---- the constants ---- *)
Lemma degrees_pi : Rabs (r_deg_to_rad - PI / 180) <= / 10 ^ 20.
Proof.
  pose proof (PI_2_3_7_ineq 9) as [L U].
  change (S (2 * 9)) with 19%nat in L. change (2 * 9)%nat with 18%nat in U.
  unfold tg_alt, PI_2_3_7_tg, Ratan_seq, r_deg_to_rad in *.
  cbn -[PI Rdiv INR] in L, U.
  rewrite !INR_IZR_INZ in L, U. cbn -[PI Rdiv] in L, U.
  apply Rabs_le. split; lra.
Qed.
Lemma radius_earth : 6356752 < r_radius < 6378137.
Proof. unfold r_radius. lra. Qed.
Lemma double_constants : Rabs (d_val d_deg_to_rad - r_deg_to_rad) <= / 2 ^ 59 /\ Rabs (d_val d_radius - r_radius) <= / 2 ^ 31 /\
  d_val d_half = / 2 /\ d_val d_two = 2.
Proof.
  assert (E1 : d_val d_deg_to_rad = IZR 5030569068109113 * / IZR (2 ^ 58)) by (vm_compute; reflexivity).
  assert (E2 : d_val d_radius = IZR 6842739276976272 * / IZR (2 ^ 30)) by (vm_compute; reflexivity).
  assert (E3 : d_val d_half = IZR 4503599627370496 * / IZR (2 ^ 53)) by (vm_compute; reflexivity).
  change (2 ^ 58)%Z with 288230376151711744%Z in E1. change (2 ^ 30)%Z with 1073741824%Z in E2. change (2 ^ 53)%Z with 9007199254740992%Z in E3.
  rewrite E1, E2, E3. unfold r_deg_to_rad, r_radius. split; [|split; [|split]].
  - apply Rabs_le. split; lra.
  - apply Rabs_le. split; lra.
  - lra.
  - apply (proj1 (d_of_Z_spec 2 ltac:(lia))).
Qed.
