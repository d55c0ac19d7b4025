(** Six significant digits of a coordinate. *)
From Coq Require Import Reals Lra Floats.SpecFloat.
From Flocq Require Import Core IEEE754.BinarySingleNaN IEEE754.Binary IEEE754.Bits.
From Verif Require Import Base.Prelude Base.Decimal Model.Osm Model.Float Model.Time Model.Attr Model.Decfloat Model.Geom Model.Wkt
  Spec.TimeSpec Spec.FloatSpec Spec.DecimalSpec Proofs.TimeProofs Proofs.AttrProofs Proofs.FloatProofs Proofs.DecfloatProofs Proofs.WktProofs.

Lemma round_ratio_half N D : 0 < D -> 2 * Z.abs (N - round_ratio N D * D) <= D.
Proof.
  intros HD. unfold round_ratio. pose proof (Z.div_mod N D ltac:(lia)) as E. pose proof (Z.mod_pos_bound N D HD) as B.
  destruct (Z.compare_spec (2 * (N mod D)) D) as [C|C|C]; [destruct (Z.even (N / D))| |]; nia.
Qed.
Lemma round_scaled_half k n d : 0 < d -> (Rabs (IZR n / IZR d * bpow r10 k - IZR (round_scaled k n d)) <= / 2)%R.
Proof.
  intros Hd. assert (HD : (0 < IZR d)%R) by (apply IZR_lt; exact Hd). unfold round_scaled. destruct (Z.leb_spec 0 k) as [L|L].
  - pose proof (round_ratio_half (n * 10 ^ k) d Hd) as H. set (r := round_ratio _ _) in *. apply IZR_le in H.
    rewrite mult_IZR, abs_IZR, minus_IZR, !mult_IZR in H. rewrite bpow10_nonneg by exact L.
    replace (IZR n * IZR (10 ^ k) - IZR r * IZR d)%R with ((IZR n / IZR d * IZR (10 ^ k) - IZR r) * IZR d)%R in H by (field; lra).
    rewrite Rabs_mult, (Rabs_pos_eq (IZR d)) in H by lra. apply Rmult_le_reg_r with (IZR d); lra.
  - pose proof (pow10_pos (- k) ltac:(lia)) as P. rewrite bpow10_neg by exact L.
    assert (DP : (0 < IZR d * IZR (10 ^ - k))%R) by (apply Rmult_lt_0_compat; assumption).
    assert (DZ : 0 < d * 10 ^ - k) by (apply lt_IZR; rewrite mult_IZR; exact DP).
    pose proof (round_ratio_half n (d * 10 ^ - k) DZ) as H. set (r := round_ratio _ _) in *. apply IZR_le in H.
    rewrite mult_IZR, abs_IZR, minus_IZR, !mult_IZR in H.
    replace (IZR n - IZR r * (IZR d * IZR (10 ^ - k)))%R with ((IZR n / IZR d * / IZR (10 ^ - k) - IZR r) * (IZR d * IZR (10 ^ - k)))%R in H by (field; lra).
    rewrite Rabs_mult, (Rabs_pos_eq (IZR d * IZR (10 ^ - k))) in H by lra. apply Rmult_le_reg_r with (IZR d * IZR (10 ^ - k))%R; lra.
Qed.
Lemma powerRZ_bpow k : powerRZ 10 k = bpow r10 k.
Proof.
  destruct (Z_lt_le_dec k 0) as [L|L].
  - rewrite bpow10_neg by exact L. rewrite <- powerRZ_neg by lia. f_equal. lia.
  - rewrite bpow10_nonneg by exact L. rewrite <- (Z2Nat.id k L). generalize (Z.to_nat k). intros j. rewrite <- pow_powerRZ, <- pow_IZR. reflexivity.
Qed.
(** the six digits of a number below 1000 *)
Lemma sci6 n d : 0 <= n -> 0 < d -> (bpow r10 (-10) <= IZR n / IZR d < 1000)%R ->
  exists ds x, sci_digits 6 n d = (ds, x) /\ 0 <= ds /\ -20 <= x <= 3 /\ (Rabs (IZR n / IZR d - IZR ds * bpow r10 (x - 5)) <= / 2000)%R.
Proof.
  intros Hn Hd [V1 V2]. set (v := (IZR n / IZR d)%R) in *.
  assert (VP : (0 < v)%R) by (eapply Rlt_le_trans; [apply bpow_gt_0|exact V1]).
  destruct (mag r10 v) as [e He]. specialize (He ltac:(lra)). rewrite Rabs_pos_eq in He by lra.
  assert (E1 : e - 1 < 3). { apply (lt_bpow r10). rewrite (bpow10_nonneg 3) by lia. change (IZR (10 ^ 3)) with 1000%R. lra. }
  assert (E2 : -10 < e). { apply (lt_bpow r10). lra. }
  assert (F : find_exp 633 308 n d = e - 1).
  { apply find_exp_spec; [exact Hd| |lia]. fold v. replace (e - 1 + 1) with e by lia. exact He. }
  unfold sci_digits. rewrite F. cbv zeta. set (x := e - 1) in *. replace (6 - 1 - x) with (5 - x) by lia.
  pose proof (round_scaled_half (5 - x) n d Hd) as H. fold v in H.
  assert (Hnn : 0 <= round_scaled (5 - x) n d).
  { assert (-1 < round_scaled (5 - x) n d); [|lia]. apply lt_IZR. apply Rabs_le_inv in H. assert (0 < v * bpow r10 (5 - x))%R by (apply Rmult_lt_0_compat; [exact VP|apply bpow_gt_0]). lra. }
  set (m := round_scaled (5 - x) n d) in *.
  assert (K : (Rabs (v - IZR m * bpow r10 (x - 5)) <= / 2000)%R).
  { replace (v - IZR m * bpow r10 (x - 5))%R with ((v * bpow r10 (5 - x) - IZR m) * bpow r10 (x - 5))%R.
    - rewrite Rabs_mult, (Rabs_pos_eq (bpow r10 (x - 5))) by apply bpow_ge_0.
      assert (bpow r10 (x - 5) <= / 1000)%R.
      { replace (/ 1000)%R with (bpow r10 (-3)) by (rewrite bpow10_neg by lia; reflexivity). apply bpow_le. lia. }
      eapply Rle_trans; [apply Rmult_le_compat; [apply Rabs_pos|apply bpow_ge_0|exact H|exact H0]|]. lra.
    - rewrite Rmult_minus_distr_r, Rmult_assoc, <- bpow_plus. replace (5 - x + (x - 5)) with 0 by lia. cbn [bpow]. ring. }
  destruct (Z.eqb_spec m (10 ^ 6)) as [E|E].
  - exists (10 ^ (6 - 1)), (x + 1). split; [reflexivity|]. split; [lia|]. split; [lia|].
    replace (IZR (10 ^ (6 - 1)) * bpow r10 (x + 1 - 5))%R with (IZR m * bpow r10 (x - 5))%R; [exact K|].
    rewrite E. replace (x + 1 - 5) with (1 + (x - 5)) by lia. rewrite bpow_plus, (bpow10_nonneg 1) by lia.
    change (IZR (10 ^ (6 - 1))) with 100000%R. change (IZR (10 ^ 6)) with 1000000%R. change (IZR (10 ^ 1)) with 10%R. ring.
  - exists m, x. split; [reflexivity|]. split; [exact Hnn|]. split; [lia|exact K].
Qed.
Lemma six_digits x : in_i32 x -> exists r, decimal (printf_g 6 (fix_to_double x)) r /\ (Rabs (r - IZR x * precision) <= / 1000)%R.
Proof.
  intros Hx. destruct (Z.eq_dec x 0) as [->|N].
  - exists 0%R. split; [|rewrite Rmult_0_l, Rminus_0_r, Rabs_R0; lra]. replace (printf_g 6 (fix_to_double 0)) with "0"%string by (vm_compute; reflexivity).
    apply (decimal_int "" "" false "0" 0); [exact I|constructor|split; [discriminate|reflexivity]].
  - destruct (fix_to_double_near x Hx) as [F H]. assert (N1 : (1 <= Rabs (IZR x))%R). { rewrite <- abs_IZR. apply IZR_le. lia. }
    assert (N2 : (Rabs (IZR x) <= 2147483648)%R). { rewrite <- abs_IZR. apply IZR_le. unfold in_i32, int32_min, int32_max in Hx. lia. }
    destruct (fix_to_double x) as [s|s|s pl pe|s m e B] eqn:ED; try discriminate F.
    + exfalso. cbn [B2R] in H. revert H. replace (0 * 10000000 - IZR x)%R with (- IZR x)%R by ring. rewrite Rabs_Ropp. lra.
    + cbn [printf_g]. set (n := if e <? 0 then Zpos m else Zpos m * 2 ^ e). set (d := if e <? 0 then 2 ^ (- e) else 1).
      assert (Hd : 0 < d) by (unfold d; destruct (Z.ltb_spec e 0); [apply Z.pow_pos_nonneg; lia|lia]).
      assert (Hn : 0 <= n) by (unfold n; destruct (Z.ltb_spec e 0); [lia|apply Z.mul_nonneg_nonneg; [lia|apply Z.pow_nonneg; lia]]).
      assert (FV : F2R (Float radix2 (Zpos m) e) = (IZR n / IZR d)%R).
      { unfold n, d. destruct (Z.ltb_spec e 0).
        - unfold F2R. cbn [Fnum Fexp]. rewrite <- (Z.opp_involutive e) at 1. rewrite bpow_opp. unfold Rdiv. f_equal. f_equal. rewrite <- IZR_Zpower by lia. reflexivity.
        - unfold F2R. cbn [Fnum Fexp]. rewrite <- IZR_Zpower by lia. rewrite <- mult_IZR. unfold Rdiv. rewrite Rinv_1, Rmult_1_r. reflexivity. }
      set (v := (IZR n / IZR d)%R) in *.
      assert (SV : val (Binary.B754_finite 53 1024 s m e B) = (if s then - v else v)%R).
      { cbn [B2R]. destruct s; cbn [cond_Zopp]; [rewrite F2R_Zopp|]; rewrite FV; reflexivity. }
      rewrite SV in H. assert (P : (0 < v)%R) by (rewrite <- FV; apply F2R_gt_0; reflexivity).
      assert (VB : (bpow r10 (-10) <= v < 1000)%R).
      { replace (bpow r10 (-10)) with (/ 10000000000)%R by (rewrite bpow10_neg by lia; reflexivity).
        destruct s; revert H N1 N2; unfold Rabs; destruct (Rcase_abs (_ - _)), (Rcase_abs (IZR x)); intros; lra. }
      destruct (sci6 n d Hn Hd VB) as (ds & y & E & D0 & Y & D1). fold v in D1. change (Z.of_nat 6) with 6. rewrite E.
      exists (IZR (if s then - ds else ds) * bpow r10 (y - 5))%R. split.
      * destruct ((-4 <=? y) && (y <? 6)) eqn:C.
        -- pose proof (trimmed_decimal (Z.to_nat (6 - 1 - y)) s ds "" 0 D0 exponent_none) as D. rewrite sapp_nil_r, powerRZ_bpow in D.
           replace (y - 5) with (0 - Z.of_nat (Z.to_nat (6 - 1 - y))) by lia. exact D.
        -- destruct (exponent_text y) as [EX _]; [lia|]. pose proof (trimmed_decimal (6 - 1) s ds _ _ D0 EX) as D. rewrite sapp_assoc, powerRZ_bpow in D.
           exact D.
      * unfold precision. apply Rabs_le_inv in D1. apply Rabs_le_inv in H. apply Rabs_le.
        destruct s; rewrite ?opp_IZR; set (w := bpow r10 (y - 5)) in *; [|lra].
        replace (- IZR ds * w)%R with (- (IZR ds * w))%R by ring. lra.
Qed.
