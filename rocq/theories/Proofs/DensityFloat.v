(** The cell of a position, computed with doubles. *)
From Coq Require Import Reals Lra.
From Flocq Require Import Core IEEE754.BinarySingleNaN IEEE754.Binary IEEE754.Bits.
From Verif Require Import Base.Prelude Model.Osm Model.Float Model.Haversine Model.Density Spec.DensitySpec Proofs.FloatProofs.
Local Open Scope R_scope.

Lemma plus_spec x y : fin x = true -> fin y = true -> Rabs (val x + val y) <= big ->
  val (d_add x y) = rnd64 (val x + val y) /\ fin (d_add x y) = true.
Proof.
  intros Fx Fy H.
  pose proof (Binary.Bplus_correct 53 1024 (eq_refl : FLX.Prec_gt_0 53) (eq_refl : BinarySingleNaN.Prec_lt_emax 53 1024) binop_nan_pl64 mode_NE x y Fx Fy) as C.
  rewrite fexp_eq in C. cbn [round_mode] in C. rewrite rnd64_lt in C by exact H. destruct C as (C1 & C2 & _). auto.
Qed.
Lemma minus_spec x y : fin x = true -> fin y = true -> Rabs (val x - val y) <= big ->
  val (d_sub x y) = rnd64 (val x - val y) /\ fin (d_sub x y) = true.
Proof.
  intros Fx Fy H.
  pose proof (Binary.Bminus_correct 53 1024 (eq_refl : FLX.Prec_gt_0 53) (eq_refl : BinarySingleNaN.Prec_lt_emax 53 1024) binop_nan_pl64 mode_NE x y Fx Fy) as C.
  rewrite fexp_eq in C. cbn [round_mode] in C. rewrite rnd64_lt in C by exact H. destruct C as (C1 & C2 & _). auto.
Qed.
Lemma near_round x : Rabs x <= 1000 -> Rabs (rnd64 x - x) <= / 1000000000000.
Proof.
  intros H. destruct (rnd64_error x) as (e & h & He & Hh & ->). replace (x * (1 + e) + h - x) with (x * e + h) by ring.
  eapply Rle_trans; [apply Rabs_triang|]. assert (Rabs (x * e) <= 1000 * u64) by (apply Rabs_le_mult; assumption).
  pose proof eta64_small. unfold u64 in *. lra.
Qed.
Lemma near_lon x : in_i32 x -> fin (fix_to_double x) = true /\ Rabs (val (fix_to_double x) - IZR x / 10000000) <= / 1000000000000 /\ Rabs (IZR x / 10000000) <= 215.
Proof.
  intros [H1 H2]. unfold int32_min, int32_max in *. destruct (fix_to_double_err x) as (e & h & He & Hh & V & F); [lia|].
  assert (B : Rabs (IZR x / 10000000) <= 215).
  { apply IZR_le in H1. apply IZR_le in H2. apply Rabs_le. lra. }
  split; [exact F|]. split; [|exact B]. rewrite V. replace (IZR x / 10000000 * (1 + e) + h - IZR x / 10000000) with (IZR x / 10000000 * e + h) by ring.
  eapply Rle_trans; [apply Rabs_triang|]. assert (Rabs (IZR x / 10000000 * e) <= 215 * u64) by (apply Rabs_le_mult; assumption).
  pose proof eta64_small. unfold u64 in *. lra.
Qed.
(** the product is near to the exact one *)
Lemma near_product s f E : fin s = true -> Rabs (val s - E) <= / 100000000000 -> Rabs E <= 400 -> (0 <= f <= 182)%Z ->
  fin (d_mul s (d_of_Z f)) = true /\ Rabs (val (d_mul s (d_of_Z f)) - E * IZR f) <= / 100000000.
Proof.
  intros F N B [Hf1 Hf2]. destruct (d_of_Z_spec f) as [Vf Ff]; [lia|]. apply IZR_le in Hf1. apply IZR_le in Hf2.
  apply Rabs_le_inv in N. apply Rabs_le_inv in B.
  assert (Bs : Rabs (val s) <= 401) by (apply Rabs_le; lra). assert (Bf : Rabs (IZR f) <= 182) by (apply Rabs_le; lra).
  assert (P : Rabs (val s * IZR f) <= 401 * 182) by (apply Rabs_le_mult; assumption).
  destruct (d_mul_err s (d_of_Z f)) as (e & h & He & Hh & V & Fm); [exact F|exact Ff|rewrite Vf; unfold big; lra|].
  split; [exact Fm|]. rewrite V, Vf. replace (val s * IZR f * (1 + e) + h - E * IZR f) with ((val s - E) * IZR f + (val s * IZR f * e + h)) by ring.
  eapply Rle_trans; [apply Rabs_triang|].
  assert (Rabs ((val s - E) * IZR f) <= / 100000000000 * 182) by (apply Rabs_le_mult; [apply Rabs_le; lra|exact Bf]).
  assert (Rabs (val s * IZR f * e + h) <= 401 * 182 * u64 + eta64).
  { eapply Rle_trans; [apply Rabs_triang|]. assert (Rabs (val s * IZR f * e) <= 401 * 182 * u64) by (apply Rabs_le_mult; assumption). lra. }
  pose proof eta64_small. unfold u64 in *. lra.
Qed.
Lemma clamp_eq n t : (1 <= n)%Z -> dn_clamp n t = Z.max 0 (Z.min t (n - 1)).
Proof. intros H. unfold dn_clamp. destruct (Z.ltb_spec t 0); cbv zeta; [destruct (Z.geb_spec 0 n)|destruct (Z.geb_spec t n)]; lia. Qed.
(** the cell found for a value near to the exact one *)
Lemma near_cell v a f n : fin v = true -> (1 <= n)%Z -> (Z.abs (a * f) <= 1000000000000)%Z ->
  Rabs (val v - IZR (a * f) / 10000000) <= / 100000000 ->
  exists t, d_to_i32 v = Ok t /\ cell f n a (dn_clamp n t).
Proof.
  intros F Hn B N. set (A := (a * f)%Z) in *. unfold d_to_i32, d_cast. rewrite F. cbv zeta.
  assert (T : Binary.Btrunc 53 1024 v = Ztrunc (val v)) by (apply eq_IZR; rewrite (Binary.Btrunc_correct 53 1024 emax64), round_FIX_IZR; reflexivity).
  rewrite T. set (V := val v) in *. clearbody V. apply Rabs_le_inv in N.
  pose proof (Z.div_mod A 10000000 ltac:(lia)) as DM. pose proof (Z.mod_pos_bound A 10000000 ltac:(lia)) as MB.
  set (Q := (A / 10000000)%Z) in *. set (r := (A mod 10000000)%Z) in *.
  assert (EA : IZR A / 10000000 = IZR Q + IZR r / 10000000) by (rewrite DM, plus_IZR, mult_IZR; field).
  assert (AB : -1000000000000 <= IZR A <= 1000000000000) by (split; apply IZR_le; lia).
  assert (Rng : (-200000 <= Ztrunc V <= 200000)%Z).
  { unfold Ztrunc. destruct (Rlt_bool_spec V 0).
    - pose proof (Zceil_ub V) as C1. pose proof (Zceil_lb V) as C2. split; apply le_IZR; lra.
    - pose proof (Zfloor_ub V) as C1. pose proof (Zfloor_lb V) as C2. split; apply le_IZR; lra. }
  exists (Ztrunc V). split.
  { unfold int32_min, int32_max. destruct (Z.leb_spec (-2147483648) (Ztrunc V)); [|lia]. destruct (Z.leb_spec (Ztrunc V) 2147483647); [reflexivity|lia]. }
  rewrite clamp_eq by exact Hn. unfold cell. fold A. fold Q. fold r.
  destruct (Rlt_or_le V 0) as [Hv|Hv].
  - assert (A0 : (A <= 0)%Z) by (apply Z.lt_succ_r; apply lt_IZR; rewrite succ_IZR; lra).
    assert (Q0 : (Q <= 0)%Z) by lia.
    assert (T0 : (Ztrunc V <= 0)%Z).
    { unfold Ztrunc. rewrite Rlt_bool_true by exact Hv. pose proof (Zceil_lb V) as C. apply Z.lt_succ_r. apply lt_IZR. rewrite succ_IZR. lra. }
    exists Q. split; [left; reflexivity|]. lia.
  - assert (T0 : Ztrunc V = Zfloor V) by (unfold Ztrunc; rewrite Rlt_bool_false by exact Hv; reflexivity).
    destruct (Z.eq_dec r 0) as [R0|R0].
    + exists (Ztrunc V). split; [|reflexivity]. rewrite T0. rewrite R0 in EA. pose proof (Zfloor_ub V) as C1. pose proof (Zfloor_lb V) as C2.
      assert (U : (Q - 2 < Zfloor V)%Z) by (apply lt_IZR; rewrite minus_IZR; lra).
      assert (L : (Zfloor V < Q + 1)%Z) by (apply lt_IZR; rewrite plus_IZR; lra).
      assert (E : (Zfloor V = Q \/ Zfloor V = Q - 1)%Z) by lia. destruct E as [->| ->]; [left; reflexivity|right; split; [exact R0|reflexivity]].
    + exists Q. split; [left; reflexivity|]. rewrite T0.
      assert (R1 : 1 <= IZR r <= 9999999) by (split; apply IZR_le; lia).
      rewrite (Zfloor_imp Q V); [reflexivity|]. rewrite plus_IZR. lra.
Qed.

Lemma column_found x f n : in_i32 x -> (0 <= f <= 182)%Z -> (1 <= n)%Z ->
  exists t, d_to_i32 (d_mul (d_add (d_of_Z 180) (fix_to_double x)) (d_of_Z f)) = Ok t /\ cell f n (1800000000 + x) (dn_clamp n t).
Proof.
  intros Hx Hf Hn. destruct (near_lon x Hx) as (F & N & B). destruct (d_of_Z_spec 180) as [V1 F1]; [lia|].
  apply Rabs_le_inv in N, B.
  assert (S : Rabs (val (d_of_Z 180) + val (fix_to_double x)) <= 1000) by (rewrite V1; apply Rabs_le; lra).
  destruct (plus_spec _ _ F1 F) as [VS FS]; [unfold big; lra|]. pose proof (near_round _ S) as R. rewrite <- VS in R. apply Rabs_le_inv in R. rewrite V1 in R.
  destruct (near_product (d_add (d_of_Z 180) (fix_to_double x)) f (180 + IZR x / 10000000) FS) as [FP NP]; [apply Rabs_le; lra|apply Rabs_le; lra|exact Hf|].
  apply near_cell; [exact FP|exact Hn| |].
  - destruct Hx as [X1 X2]. unfold int32_min, int32_max in *. nia.
  - replace (IZR ((1800000000 + x) * f) / 10000000) with ((180 + IZR x / 10000000) * IZR f) by (rewrite mult_IZR, plus_IZR; field). exact NP.
Qed.
Lemma row_found y f n : in_i32 y -> (0 <= f <= 182)%Z -> (1 <= n)%Z ->
  exists t, d_to_i32 (d_mul (d_sub (d_of_Z 90) (fix_to_double y)) (d_of_Z f)) = Ok t /\ cell f n (900000000 - y) (dn_clamp n t).
Proof.
  intros Hy Hf Hn. destruct (near_lon y Hy) as (F & N & B). destruct (d_of_Z_spec 90) as [V1 F1]; [lia|].
  apply Rabs_le_inv in N, B.
  assert (S : Rabs (val (d_of_Z 90) - val (fix_to_double y)) <= 1000) by (rewrite V1; apply Rabs_le; lra).
  destruct (minus_spec _ _ F1 F) as [VS FS]; [unfold big; lra|]. pose proof (near_round _ S) as R. rewrite <- VS in R. apply Rabs_le_inv in R. rewrite V1 in R.
  destruct (near_product (d_sub (d_of_Z 90) (fix_to_double y)) f (90 - IZR y / 10000000) FS) as [FP NP]; [apply Rabs_le; lra|apply Rabs_le; lra|exact Hf|].
  apply near_cell; [exact FP|exact Hn| |].
  - destruct Hy as [X1 X2]. unfold int32_min, int32_max in *. nia.
  - replace (IZR ((900000000 - y) * f) / 10000000) with ((90 - IZR y / 10000000) * IZR f) by (rewrite mult_IZR, minus_IZR; field). exact NP.
Qed.
