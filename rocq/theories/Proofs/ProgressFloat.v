(** The speed shown by the progress display: four roundings in single precision. *)
From Coq Require Import Reals Lra Floats.SpecFloat.
From Flocq Require Import Core IEEE754.BinarySingleNaN IEEE754.Binary IEEE754.Bits.
From Flocq.Prop Require Import Relative.
From Verif Require Import Base.Prelude Model.Progress Spec.ProgressSpec.
Local Open Scope R_scope.

Notation rnd32 := (round radix2 (FLT_exp (-149) 24) ZnearestE).
Notation val32 := (Binary.B2R 24 128).
Notation fin32 := (Binary.is_finite 24 128).
Definition u32 : R := / 16777216.
Definition small32 : R := / 85070591730234615865843651857942052864.
Definition large32 : R := 1267650600228229401496703205376.

Lemma small32_bpow : small32 = bpow radix2 (-126).
Proof. unfold small32. cbn [bpow]. reflexivity. Qed.
Lemma large32_bpow : large32 = bpow radix2 100.
Proof. unfold large32. cbn [bpow]. reflexivity. Qed.
Lemma rnd32_rel x : small32 <= Rabs x -> exists e, Rabs e <= u32 /\ rnd32 x = x * (1 + e).
Proof.
  intros H. rewrite small32_bpow in H.
  destruct (relative_error_N_FLT_ex radix2 (-149) 24 eq_refl (fun t => negb (Z.even t)) x H) as (e & E & R).
  exists e. split; [|exact R]. eapply Rle_trans; [exact E|]. right. unfold u32. change (- (24) + 1)%Z with (-23)%Z. cbn [bpow].
  change (Z.pow_pos radix2 23) with 8388608%Z. lra.
Qed.
Lemma fexp32 : SpecFloat.fexp 24 128 = FLT_exp (-149) 24.
Proof. reflexivity. Qed.
Lemma rnd32_lt x : Rabs x <= large32 -> Rlt_bool (Rabs (rnd32 x)) (bpow radix2 128) = true.
Proof.
  intros H. apply Rlt_bool_true. apply Rle_lt_trans with (bpow radix2 100); [|apply bpow_lt; lia].
  rewrite large32_bpow in H. apply abs_round_le_generic; [apply FLT_exp_valid; reflexivity|apply valid_rnd_N|apply generic_format_bpow; cbn; lia|exact H].
Qed.
Lemma f_of_Z_spec z : (z <> 0)%Z -> (Z.abs z <= 18446744073709551616)%Z ->
  exists e, Rabs e <= u32 /\ val32 (f_of_Z z) = IZR z * (1 + e) /\ fin32 (f_of_Z z) = true.
Proof.
  intros N H.
  pose proof (Binary.binary_normalize_correct 24 128 prec32 emax32 mode_NE z 0 false) as C.
  rewrite fexp32 in C. cbn [round_mode] in C.
  assert (EF : F2R (Float radix2 z 0) = IZR z) by (unfold F2R; cbn; lra). rewrite EF in C.
  assert (A : 1 <= Rabs (IZR z)) by (rewrite <- abs_IZR; apply IZR_le; lia).
  rewrite rnd32_lt in C.
  - destruct C as (C1 & C2 & _). destruct (rnd32_rel (IZR z)) as (e & E1 & E2); [unfold small32; lra|].
    exists e. split; [exact E1|]. split; [unfold f_of_Z; rewrite C1; exact E2|exact C2].
  - rewrite <- abs_IZR. unfold large32. apply IZR_le. lia.
Qed.
Lemma f_div_spec x y : fin32 x = true -> small32 <= Rabs (val32 x / val32 y) <= large32 -> val32 y <> 0 ->
  exists e, Rabs e <= u32 /\ val32 (b32_div mode_NE x y) = val32 x / val32 y * (1 + e) /\ fin32 (b32_div mode_NE x y) = true.
Proof.
  intros Fx H Hy.
  pose proof (Binary.Bdiv_correct 24 128 (eq_refl : FLX.Prec_gt_0 24) (eq_refl : BinarySingleNaN.Prec_lt_emax 24 128) binop_nan_pl32 mode_NE x y Hy) as C.
  rewrite fexp32 in C. cbn [round_mode] in C. rewrite rnd32_lt in C by apply H.
  destruct C as (C1 & C2 & _). rewrite Fx in C2. destruct (rnd32_rel _ (proj1 H)) as (e & E1 & E2).
  exists e. split; [exact E1|]. split; [rewrite <- E2; exact C1|exact C2].
Qed.
Lemma f_mul_spec x y : fin32 x = true -> fin32 y = true -> small32 <= Rabs (val32 x * val32 y) <= large32 ->
  exists e, Rabs e <= u32 /\ val32 (b32_mult mode_NE x y) = val32 x * val32 y * (1 + e) /\ fin32 (b32_mult mode_NE x y) = true.
Proof.
  intros Fx Fy H.
  pose proof (Binary.Bmult_correct 24 128 (eq_refl : FLX.Prec_gt_0 24) (eq_refl : BinarySingleNaN.Prec_lt_emax 24 128) binop_nan_pl32 mode_NE x y) as C.
  rewrite fexp32 in C. cbn [round_mode] in C. rewrite rnd32_lt in C by apply H.
  destruct C as (C1 & C2 & _). rewrite Fx, Fy in C2. destruct (rnd32_rel _ (proj1 H)) as (e & E1 & E2).
  exists e. split; [exact E1|]. split; [rewrite <- E2; exact C1|exact C2].
Qed.

Lemma widen k e u a : 0 <= u -> 0 <= k <= 2 -> - u <= e <= u -> 1 - a * u <= k <= 1 + a * u -> 1 - (a + 2) * u <= k * (1 + e) <= 1 + (a + 2) * u.
Proof.
  intros U K E A. assert (- (2 * u) <= k * e <= 2 * u).
  { split; [apply Rle_trans with (- (k * u)); nra|apply Rle_trans with (k * u); nra]. }
  replace (k * (1 + e)) with (k + k * e) by ring. lra.
Qed.
Definition speed32 (c d : Z) : float := b32_mult mode_NE (b32_div mode_NE (f_of_Z c) (f_of_Z d)) (f_of_Z 1000000).
Lemma million : val32 (f_of_Z 1000000) = 1000000 /\ fin32 (f_of_Z 1000000) = true.
Proof.
  split; [|vm_compute; reflexivity].
  assert (E : f_of_Z 1000000 = Binary.B754_finite 24 128 false 16000000 (-4) eq_refl).
  { apply Binary.B2FF_inj. vm_compute. reflexivity. }
  rewrite E. cbn [Binary.B2R]. unfold F2R. cbn [cond_Zopp Fnum Fexp bpow]. change (Z.pow_pos radix2 4) with 16%Z. lra.
Qed.

Lemma speed32_value c d : (0 < c <= 18446744073709551616)%Z -> (d <> 0)%Z -> (Z.abs d <= 9223372036854775808)%Z ->
  fin32 (speed32 c d) = true /\ Rabs (val32 (speed32 c d) - IZR (1000000 * c) / IZR d) <= Rabs (IZR c / IZR d) * / 2.
Proof.
  intros Hc Nd Hd. unfold speed32.
  destruct (f_of_Z_spec c ltac:(lia) ltac:(lia)) as (e1 & E1 & V1 & F1).
  destruct (f_of_Z_spec d Nd ltac:(lia)) as (e2 & E2 & V2 & F2). destruct million as [VM FM].
  assert (U : u32 = / 16777216) by reflexivity. set (u := u32) in *.
  apply Rabs_le_inv in E1, E2.
  assert (C1 : 1 <= IZR c <= 18446744073709551616) by (split; apply IZR_le; lia).
  assert (D1 : 1 <= Rabs (IZR d) <= 9223372036854775808) by (rewrite <- abs_IZR; split; apply IZR_le; lia).
  assert (Dz : IZR d <> 0) by (intros X; rewrite X, Rabs_R0 in D1; lra).
  assert (P2 : 1 + e2 <> 0) by lra.
  set (r := Rabs (IZR c / IZR d)).
  assert (R0 : r = IZR c * / Rabs (IZR d)).
  { unfold r, Rdiv. rewrite Rabs_mult, Rabs_inv, (Rabs_pos_eq (IZR c)) by lra. reflexivity. }
  assert (ID : / 9223372036854775808 <= / Rabs (IZR d) <= 1).
  { split; [apply Rinv_le; lra|]. apply Rle_trans with (/ 1); [apply Rinv_le; lra|rewrite Rinv_1; lra]. }
  assert (R1 : / 9223372036854775808 <= r <= 18446744073709551616) by (rewrite R0; split; nra).
  assert (Q : val32 (f_of_Z c) / val32 (f_of_Z d) = IZR c / IZR d * ((1 + e1) / (1 + e2))).
  { rewrite V1, V2. field. split; assumption. }
  assert (K : 1 - 3 * u <= (1 + e1) / (1 + e2) <= 1 + 3 * u).
  { split.
    - apply Rmult_le_reg_r with (1 + e2); [lra|]. unfold Rdiv. rewrite Rmult_assoc, Rinv_l, Rmult_1_r by exact P2. nra.
    - apply Rmult_le_reg_r with (1 + e2); [lra|]. unfold Rdiv. rewrite Rmult_assoc, Rinv_l, Rmult_1_r by exact P2. nra. }
  set (k := (1 + e1) / (1 + e2)) in *. clearbody k.
  destruct (f_div_spec (f_of_Z c) (f_of_Z d) F1) as (e3 & E3 & V3 & F3).
  { rewrite Q, Rabs_mult. fold r. rewrite (Rabs_pos_eq k) by lra. unfold small32, large32. split; nra. }
  { rewrite V2. intros X. apply Rmult_integral in X. destruct X; contradiction. }
  rewrite Q in V3. fold u in E3. apply Rabs_le_inv in E3.
  assert (K3 : 1 - (3 + 2) * u <= k * (1 + e3) <= 1 + (3 + 2) * u) by (apply widen; lra).
  rewrite Rmult_assoc in V3. set (k3 := k * (1 + e3)) in *. clearbody k3.
  destruct (f_mul_spec _ (f_of_Z 1000000) F3 FM) as (e4 & E4 & V4 & F4).
  { rewrite V3, VM, !Rabs_mult. fold r. rewrite (Rabs_pos_eq k3), (Rabs_pos_eq 1000000) by lra. unfold small32, large32. split; nra. }
  rewrite V3, VM in V4. fold u in E4. apply Rabs_le_inv in E4.
  assert (K4 : 1 - (3 + 2 + 2) * u <= k3 * (1 + e4) <= 1 + (3 + 2 + 2) * u) by (apply widen; lra).
  split; [exact F4|]. rewrite V4, mult_IZR.
  replace (IZR c / IZR d * k3 * 1000000 * (1 + e4) - 1000000 * IZR c / IZR d) with (IZR c / IZR d * (1000000 * (k3 * (1 + e4) - 1))) by (field; exact Dz).
  rewrite Rabs_mult. fold r. apply Rmult_le_compat_l; [lra|]. apply Rabs_le. split; lra.
Qed.

Lemma trunc_near x : Rabs (IZR (Ztrunc x) - x) <= 1.
Proof.
  unfold Ztrunc. destruct (Rlt_bool_spec x 0).
  - pose proof (Zceil_ub x). pose proof (Zceil_lb x). apply Rabs_le. lra.
  - pose proof (Zfloor_ub x). pose proof (Zfloor_lb x). apply Rabs_le. lra.
Qed.
Lemma f_to_int_trunc x : fin32 x = true -> Binary.Btrunc 24 128 x = Ztrunc (val32 x).
Proof.
  intros _. apply eq_IZR. rewrite (Binary.Btrunc_correct 24 128 emax32). rewrite round_FIX_IZR. reflexivity.
Qed.
(** a result is there unless it is larger than an int can be *)
Lemma speed32_defined c d : (0 < c <= 18446744073709551616)%Z -> (d <> 0)%Z -> (Z.abs d <= 9223372036854775808)%Z ->
  (c <= 2000 * Z.abs d)%Z -> exists k, f_to_int (speed32 c d) = Ok k.
Proof.
  intros Hc Nd Hd L. destruct (speed32_value c d Hc Nd Hd) as [F V]. unfold f_to_int. rewrite F. cbv zeta.
  rewrite (f_to_int_trunc _ F). set (v := val32 (speed32 c d)) in *. clearbody v.
  pose proof (trunc_near v) as T. set (t := Ztrunc v) in *. clearbody t.
  assert (D1 : 1 <= Rabs (IZR d)) by (rewrite <- abs_IZR; apply IZR_le; lia).
  assert (C1 : 1 <= IZR c) by (apply IZR_le; lia).
  assert (L1 : Rabs (IZR c / IZR d) <= 2000).
  { unfold Rdiv. rewrite Rabs_mult, Rabs_inv, (Rabs_pos_eq (IZR c)) by lra. apply IZR_le in L. rewrite mult_IZR, abs_IZR in L.
    apply Rmult_le_reg_r with (Rabs (IZR d)); [lra|]. rewrite Rmult_assoc, Rinv_l by lra. lra. }
  assert (M : Rabs (IZR (1000000 * c) / IZR d) <= 2000000000).
  { rewrite mult_IZR. replace (1000000 * IZR c / IZR d) with (1000000 * (IZR c / IZR d)) by (unfold Rdiv; ring).
    rewrite Rabs_mult, (Rabs_pos_eq 1000000) by lra. lra. }
  apply Rabs_le_inv in V, T, M.
  assert (B : (-2000002000 <= t <= 2000002000)%Z) by (split; apply le_IZR; lra).
  unfold int32_min, int32_max.
  destruct (Z.leb_spec (-2147483648) t); [|lia]. destruct (Z.leb_spec t 2147483647); [|lia]. eexists; reflexivity.
Qed.
(** and it is right *)
Lemma speed32_right c d k : (0 < c <= 18446744073709551616)%Z -> (0 < d <= 9223372036854775808)%Z ->
  f_to_int (speed32 c d) = Ok k -> speed_of k c d.
Proof.
  intros Hc Hd E. destruct (speed32_value c d Hc ltac:(lia) ltac:(lia)) as [F V]. unfold f_to_int in E. rewrite F in E. cbv zeta in E.
  rewrite (f_to_int_trunc _ F) in E. destruct (_ && _); [|discriminate E]. injection E as <-.
  set (v := val32 (speed32 c d)) in *. clearbody v. pose proof (trunc_near v) as T. set (t := Ztrunc v) in *. clearbody t.
  unfold speed_of. apply le_IZR. rewrite abs_IZR, minus_IZR, plus_IZR, !mult_IZR. rewrite mult_IZR in V.
  assert (D1 : 1 <= IZR d) by (apply IZR_le; lia). assert (C1 : 1 <= IZR c) by (apply IZR_le; lia).
  rewrite (Rabs_pos_eq (IZR c / IZR d)) in V by (apply Rlt_le, Rdiv_lt_0_compat; lra).
  assert (X : Rabs ((IZR t - 1000000 * IZR c / IZR d) * IZR d) <= (1 + IZR c / IZR d * / 2) * IZR d).
  { rewrite Rabs_mult, (Rabs_pos_eq (IZR d)) by lra. apply Rmult_le_compat_r; [lra|].
    replace (IZR t - 1000000 * IZR c / IZR d) with ((IZR t - v) + (v - 1000000 * IZR c / IZR d)) by ring.
    eapply Rle_trans; [apply Rabs_triang|]. lra. }
  replace ((IZR t - 1000000 * IZR c / IZR d) * IZR d) with (IZR t * IZR d - 1000000 * IZR c) in X by (field; lra).
  replace ((1 + IZR c / IZR d * / 2) * IZR d) with (IZR d + IZR c * / 2) in X by (field; lra). lra.
Qed.
