(** How far the distances computed with doubles are from the real ones: the bounds in metres. *)
From Coq Require Import Reals Lra Psatz Rtrigo Ratan.
From Flocq Require Import Core IEEE754.BinarySingleNaN IEEE754.Binary IEEE754.Bits.
From Verif Require Import Base.Prelude Model.Osm Model.Float Model.Haversine Spec.FloatSpec Spec.HaversineSpec
  Proofs.FloatProofs Proofs.HaversineProofs Proofs.HavFloatProofs Proofs.PiProofs Proofs.HavErrorProofs Proofs.HavError2Proofs.
Local Open Scope R_scope.

(** the square root, with doubles and with reals *)
Definition d_root (dsin dcos : double -> double) (p q : position) : double :=
  let a := dsin (d_mul (d_mul (d_sub (pos_lat p) (pos_lat q)) d_deg_to_rad) d_half) in
  let b := dsin (d_mul (d_mul (d_sub (pos_lon p) (pos_lon q)) d_deg_to_rad) d_half) in
  d_sqrt (d_add (d_mul a a) (d_mul (d_mul (dcos (d_mul (pos_lat p) d_deg_to_rad)) (dcos (d_mul (pos_lat q) d_deg_to_rad))) (d_mul b b))).
Definition r_root (p q : position) : R :=
  let a := sin ((r_lat p - r_lat q) * r_deg_to_rad * / 2) in
  let b := sin ((r_lon p - r_lon q) * r_deg_to_rad * / 2) in
  sqrt (a * a + cos (r_lat p * r_deg_to_rad) * cos (r_lat q * r_deg_to_rad) * (b * b)).
Lemma d_root_distance dsin dcos dasin p q : d_distance dsin dcos dasin p q = d_mul (d_mul d_two d_radius) (dasin (d_root dsin dcos p q)).
Proof. reflexivity. Qed.
Lemma r_root_distance p q : r_distance p q = 2 * r_radius * asin (r_root p q).
Proof. reflexivity. Qed.
Lemma r_root_arg p q : let a := sin ((r_lat p - r_lat q) * r_deg_to_rad * / 2) in
  let b := sin ((r_lon p - r_lon q) * r_deg_to_rad * / 2) in
  0 <= a * a + cos (r_lat p * r_deg_to_rad) * cos (r_lat q * r_deg_to_rad) * (b * b) <= 1.
Proof.
  cbn zeta.
  replace ((r_lon p - r_lon q) * r_deg_to_rad) with (r_lon p * r_deg_to_rad - r_lon q * r_deg_to_rad) by ring.
  replace ((r_lat p - r_lat q) * r_deg_to_rad) with (r_lat p * r_deg_to_rad - r_lat q * r_deg_to_rad) by ring.
  pose proof (hav_arg (r_lon p * r_deg_to_rad) (r_lat p * r_deg_to_rad) (r_lon q * r_deg_to_rad) (r_lat q * r_deg_to_rad)) as H. cbn zeta in H.
  pose proof (sphere_dot p q) as B. unfold dot, on_sphere in *. cbn [vx vy vz] in *. rewrite <- H in *. lra.
Qed.
Lemma r_root_range p q : 0 <= r_root p q <= 1.
Proof.
  pose proof (r_root_arg p q) as H. cbn zeta in H. unfold r_root. cbn zeta. split; [apply sqrt_pos|]. rewrite <- sqrt_1. apply sqrt_le_1_alt, H.
Qed.
Lemma root_error dsin dcos p q : accurate 4 dsin sin -> accurate 4 dcos cos -> on_earth p -> on_earth q ->
  fin (d_root dsin dcos p q) = true /\ 0 <= val (d_root dsin dcos p q) /\ Rabs (val (d_root dsin dcos p q) - r_root p q) <= 19.7 * t.
Proof.
  intros As Ac Op Oq. destruct (lat_near p Op) as [N1 B1]. destruct (lat_near q Oq) as [N2 B2]. destruct (lon_near p Op) as [N3 B3]. destruct (lon_near q Oq) as [N4 B4].
  assert (Ha : near (dsin (d_mul (d_mul (d_sub (pos_lat p) (pos_lat q)) d_deg_to_rad) d_half)) (sin ((r_lat p - r_lat q) * r_deg_to_rad * / 2)) (2.1 * t)).
  { apply (arc_sin dsin _ _ _ _ (10 * t) 90 As N1 N2 B1 B2); unfold t; lra. }
  assert (Hb : near (dsin (d_mul (d_mul (d_sub (pos_lon p) (pos_lon q)) d_deg_to_rad) d_half)) (sin ((r_lon p - r_lon q) * r_deg_to_rad * / 2)) (2.1 * t)).
  { apply (arc_sin dsin _ _ _ _ (20 * t) 180 As N3 N4 B3 B4); unfold t; lra. }
  destruct (lat_cos dcos p Ac Op) as (Hc & Pc & Rc). destruct (lat_cos dcos q Ac Oq) as (Hd & Pd & Rd).
  pose proof (r_root_arg p q) as RA. cbn zeta in RA.
  assert (CD : Rabs (cos (r_lat p * r_deg_to_rad) - cos (r_lat q * r_deg_to_rad)) <= 2 * Rabs (sin ((r_lat p - r_lat q) * r_deg_to_rad * / 2))).
  { eapply Rle_trans; [apply cos_diff|]. right. do 3 f_equal. unfold Rdiv. ring. }
  unfold d_root, r_root. cbn zeta.
  set (a := dsin (d_mul (d_mul (d_sub (pos_lat p) (pos_lat q)) d_deg_to_rad) d_half)) in *.
  set (b := dsin (d_mul (d_mul (d_sub (pos_lon p) (pos_lon q)) d_deg_to_rad) d_half)) in *.
  set (c := dcos (d_mul (pos_lat p) d_deg_to_rad)) in *. set (d := dcos (d_mul (pos_lat q) d_deg_to_rad)) in *.
  set (A := sin ((r_lat p - r_lat q) * r_deg_to_rad * / 2)) in *. set (B := sin ((r_lon p - r_lon q) * r_deg_to_rad * / 2)) in *.
  set (C := cos (r_lat p * r_deg_to_rad)) in *. set (D := cos (r_lat q * r_deg_to_rad)) in *.
  assert (SA : Rabs A <= 1) by apply abs_sin_1. assert (SB : Rabs B <= 1) by apply abs_sin_1.
  pose proof (near_abs _ _ _ _ Ha SA) as Ba. pose proof (near_abs _ _ _ _ Hb SB) as Bb.
  pose proof (near_abs _ _ _ 1 Hc ltac:(rewrite Rabs_pos_eq; lra)) as Bc. pose proof (near_abs _ _ _ 1 Hd ltac:(rewrite Rabs_pos_eq; lra)) as Bd.
  rewrite (Rabs_pos_eq _ Pc) in Bc. rewrite (Rabs_pos_eq _ Pd) in Bd.
  destruct (hav_sum a b c d (proj1 Ha) (proj1 Hb) (proj1 Hc) (proj1 Hd)) as (Fh & Ph & Eh); [unfold t in *; lra..|].
  set (h := d_add (d_mul a a) (d_mul (d_mul c d) (d_mul b b))) in *.
  assert (RC : Rabs (sqrt (val h) - sqrt (A * A + C * D * (B * B))) <= 19.5 * t).
  { apply (root_close t A B C D (val a) (val b) (val c) (val d) (val h)); try assumption; try apply Ha; try apply Hb; try apply Hc; try apply Hd; [unfold t; lra|apply RA]. }
  destruct (sqrt_spec h Fh Ph) as [V F]. split; [exact F|]. rewrite V. split; [apply rnd_nonneg, sqrt_pos|].
  assert (S1 : sqrt (A * A + C * D * (B * B)) <= 1) by (rewrite <- sqrt_1; apply sqrt_le_1_alt, RA).
  set (s := sqrt (A * A + C * D * (B * B))) in *. set (r := sqrt (val h)) in *.
  assert (R0 : 0 <= r) by apply sqrt_pos. apply abs_bounds in RC.
  assert (R1 : Rabs r <= 1.1) by (rewrite Rabs_pos_eq by exact R0; unfold t in *; lra).
  pose proof (rnd_abs _ _ R1) as E. apply abs_bounds in E. apply Rabs_le. consts.
Qed.
Lemma scale_near : near (d_mul d_two d_radius) (2 * r_radius) (/ 100000000) /\ Rabs (2 * r_radius) <= 12745596.
Proof.
  destruct double_constants as (_ & E & _ & E2).
  assert (N2 : near d_two 2 0) by (split; [reflexivity|]; change (val d_two) with (d_val d_two); rewrite E2, Rminus_diag_eq, Rabs_R0 by reflexivity; lra).
  assert (NR : near d_radius r_radius (/ 2147483648)).
  { split; [reflexivity|]. eapply Rle_trans; [exact E|]. right. replace (2 ^ 31) with (IZR (2 ^ 31)) by (rewrite (pow_IZR 2 31); reflexivity). reflexivity. }
  assert (RB : Rabs r_radius <= 6372798) by (unfold r_radius; rewrite Rabs_pos_eq; lra).
  split; [|unfold r_radius; rewrite Rabs_pos_eq; lra].
  eapply near_le; [apply (near_mul _ _ _ _ 2 6372798 _ _ N2 NR); try lra; rewrite Rabs_pos_eq; lra|]. consts.
Qed.
(** the last steps *)
Lemma distance_from_root dsin dcos dasin p q e : accurate 1 dasin asin -> 0 <= val (d_root dsin dcos p q) <= 1 -> fin (d_root dsin dcos p q) = true ->
  0 <= e <= / 1000 -> Rabs (asin (val (d_root dsin dcos p q)) - asin (r_root p q)) <= e ->
  near (d_distance dsin dcos dasin p q) (r_distance p q) (12745597 * e + / 40000000).
Proof.
  intros A R F He E. rewrite d_root_distance, r_root_distance. set (r := d_root dsin dcos p q) in *. pose proof (r_root_range p q) as RS. set (s := r_root p q) in *.
  destruct (A r F) as [Fa Ea]; [unfold d_val; change (B2R 53 1024 r) with (val r); rewrite Rabs_pos_eq; lra|]. unfold d_val in Ea. rewrite two52, two100 in Ea.
  destruct (asin_range _ R) as [Q _]. destruct (asin_range _ RS) as [Qs _]. pose proof pi_bounds as PB. unfold r_deg_to_rad in PB. rewrite (Rabs_pos_eq (asin (val r))) in Ea by lra.
  assert (N : near (dasin r) (asin s) (e + 0.4 * t)).
  { split; [exact Fa|]. apply abs_bounds in Ea, E. apply Rabs_le. consts. }
  assert (B : Rabs (asin s) <= 1.6) by (rewrite Rabs_pos_eq; lra).
  destruct scale_near as [SN SB].
  eapply near_le; [apply (near_mul _ _ _ _ 12745596 1.6 _ _ SN N SB B); unfold t; lra|]. 
  assert (u64 * ((12745596 + / 100000000) * (1.6 + (e + 0.4 * t))) <= u64 * 20500000) by (apply Rmult_le_compat_l; [unfold u64; lra|unfold t; lra]).
  consts.
Qed.
Lemma distance_close dsin dcos dasin p q : accurate 4 dsin sin -> accurate 4 dcos cos -> accurate 1 dasin asin -> on_earth p -> on_earth q ->
  r_distance p q <= 20000000 ->
  d_fin (d_distance dsin dcos dasin p q) /\ Rabs (d_val (d_distance dsin dcos dasin p q) - r_distance p q) <= / 1000.
Proof.
  intros As Ac Aa Op Oq L. destruct (root_error dsin dcos p q As Ac Op Oq) as (F & P & E). pose proof (r_root_range p q) as RS.
  rewrite r_root_distance in L. destruct (asin_range _ RS) as [Qs Ss]. pose proof pi_bounds as PB. unfold r_deg_to_rad in PB.
  assert (AS : asin (r_root p q) <= 20000000 / (2 * r_radius)).
  { apply Rmult_le_reg_l with (2 * r_radius); [unfold r_radius; lra|]. replace (2 * r_radius * (20000000 / (2 * r_radius))) with 20000000 by (field; unfold r_radius; lra). exact L. }
  assert (LIM : 20000000 / (2 * r_radius) <= 1.56917) by (unfold r_radius; lra).
  assert (S1 : r_root p q <= 1 - / 1000000).
  { destruct (half_angle (PI / 2) (asin (r_root p q))) as (D & H & S); [lra|lra|]. rewrite Ss, sin_PI2 in H.
    set (d := (PI / 2 - asin (r_root p q)) / 2) in *.
    assert (0.0008 <= d) by (unfold d; lra).
    assert (sin 0.0008 <= sin d) by (apply sin_incr_1; lra). assert (0.0008 <= 1.01 * sin 0.0008) by (apply sin_ge_small; lra).
    assert (0.00079 <= sin d) by lra. set (cc := cos ((PI / 2 + asin (r_root p q)) / 2)) in *. assert (0.00079 * 0.00079 <= cc * sin d) by (apply Rmult_le_compat; lra). lra. }
  assert (R1 : val (d_root dsin dcos p q) <= 1) by (apply abs_bounds in E; unfold t in *; lra).
  assert (X : near (d_distance dsin dcos dasin p q) (r_distance p q) (12745597 * (26 * (1000 * t)) + / 40000000)).
  { apply distance_from_root; try assumption; [lra|unfold t; lra|].
    rewrite Rabs_minus_sym. eapply Rle_trans; [apply (asin_near (r_root p q) (val (d_root dsin dcos p q)) 0.00079 (19.7 * t)); try lra; try (unfold t; lra)|unfold t; lra].
    rewrite Rabs_minus_sym. exact E. }
  split; [apply X|]. eapply Rle_trans; [apply X|]. unfold t. lra.
Qed.
Lemma distance_near dsin dcos dasin p q : accurate 4 dsin sin -> accurate 4 dcos cos -> accurate 1 dasin asin -> undefined_above_one dasin -> on_earth p -> on_earth q ->
  d_fin (d_distance dsin dcos dasin p q) -> Rabs (d_val (d_distance dsin dcos dasin p q) - r_distance p q) <= 3.
Proof.
  intros As Ac Aa U Op Oq Fd. destruct (root_error dsin dcos p q As Ac Op Oq) as (F & P & E). pose proof (r_root_range p q) as RS.
  destruct (Rle_or_lt (val (d_root dsin dcos p q)) 1) as [R1|R1].
  - eapply Rle_trans; [apply (distance_from_root dsin dcos dasin p q (2.02 * 0.0000001)); try assumption; try lra|lra].
    apply asin_holder; try lra. unfold t in *. lra.
  - exfalso. apply (U _ F R1). rewrite d_root_distance in Fd. unfold d_fin in *. destruct (dasin (d_root dsin dcos p q)) as [s|s|s pl B|s m e B]; try reflexivity; exfalso; revert Fd.
    + destruct s; vm_compute; discriminate.
    + generalize (d_mul d_two d_radius). intros z. unfold d_mul, b64_mult, Binary.Bmult. destruct z; cbn [BSN2B]; try rewrite Binary.is_finite_build_nan; discriminate.
Qed.
