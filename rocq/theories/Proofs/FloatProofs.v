(** Error analysis of the double computations (Flocq). *)
From Coq Require Import Reals Lra Floats.SpecFloat.
From Flocq Require Import Core IEEE754.BinarySingleNaN IEEE754.Binary IEEE754.Bits.
From Flocq.Prop Require Import Relative.
From Verif Require Import Base.Prelude Model.Osm Model.Float Spec.FloatSpec.
Local Open Scope R_scope.

Notation rnd64 := (round radix2 (FLT_exp (-1074) 53) ZnearestE).
Notation val := (Binary.B2R 53 1024).
Notation fin := (Binary.is_finite 53 1024).

Definition u64 : R := / 9007199254740992.
Definition eta64 : R := / 1267650600228229401496703205376.

Lemma u64_bpow : / 2 * bpow radix2 (-53 + 1) = u64.
Proof.
  unfold u64. change (-53 + 1)%Z with (-52)%Z. cbn [bpow].
  change (Z.pow_pos radix2 52) with 4503599627370496%Z. lra.
Qed.
Lemma eta64_bpow : / 2 * bpow radix2 (-1074) <= eta64.
Proof.
  apply Rle_trans with (bpow radix2 (-100)).
  - assert (bpow radix2 (-1074) <= bpow radix2 (-100)) by (apply bpow_le; lia).
    pose proof (bpow_ge_0 radix2 (-1074)). lra.
  - unfold eta64. cbn [bpow]. change (Z.pow_pos radix2 100) with 1267650600228229401496703205376%Z. lra.
Qed.

Lemma rnd64_error x : exists eps eta,
  Rabs eps <= u64 /\ Rabs eta <= eta64 /\ rnd64 x = x * (1 + eps) + eta.
Proof.
  destruct (error_N_FLT radix2 (-1074) 53 eq_refl (fun t => negb (Z.even t)) x) as (eps & eta & H1 & H2 & _ & H4).
  exists eps, eta. split; [eapply Rle_trans; [exact H1|right; exact u64_bpow]|]. split; [|exact H4].
  eapply Rle_trans; [exact H2|apply eta64_bpow].
Qed.

Lemma fexp_eq : SpecFloat.fexp 53 1024 = FLT_exp (-1074) 53.
Proof. reflexivity. Qed.

Definition big : R := 1000000000000000000000000000000.

Lemma big_lt : 2 * big < bpow radix2 1024.
Proof.
  apply Rlt_le_trans with (bpow radix2 110); [|apply bpow_le; lia].
  unfold big. cbn [bpow]. change (Z.pow_pos radix2 110) with 1298074214633706907132624082305024%Z. lra.
Qed.

Lemma u64_small : 0 < u64 < / 1000000000000000.
Proof. unfold u64; split; lra. Qed.
Lemma eta64_small : 0 < eta64 < / 1000000000000000000000000000000.
Proof. unfold eta64; split; lra. Qed.

Lemma rnd64_lt x : Rabs x <= big -> Rlt_bool (Rabs (rnd64 x)) (bpow radix2 1024) = true.
Proof.
  intros H. apply Rlt_bool_true. apply Rle_lt_trans with (2 * big); [|apply big_lt].
  destruct (rnd64_error x) as (e & h & He & Hh & ->).
  pose proof u64_small. pose proof eta64_small.
  eapply Rle_trans; [apply Rabs_triang|]. rewrite Rabs_mult.
  assert (Rabs (1 + e) <= 3 / 2).
  { eapply Rle_trans; [apply Rabs_triang|]. rewrite Rabs_R1. lra. }
  assert (Rabs x * Rabs (1 + e) <= big * (3 / 2)).
  { apply Rmult_le_compat; try apply Rabs_pos; lra. }
  unfold big in *; lra.
Qed.

Lemma d_mul_spec x y : fin x = true -> fin y = true -> Rabs (val x * val y) <= big ->
  val (d_mul x y) = rnd64 (val x * val y) /\ fin (d_mul x y) = true.
Proof.
  intros Fx Fy H.
  pose proof (Binary.Bmult_correct 53 1024 (eq_refl : FLX.Prec_gt_0 53) (eq_refl : BinarySingleNaN.Prec_lt_emax 53 1024) binop_nan_pl64 mode_NE x y) as C.
  rewrite fexp_eq in C. cbn [round_mode] in C. rewrite rnd64_lt in C by exact H.
  destruct C as (C1 & C2 & _). rewrite Fx, Fy in C2. split; [exact C1|exact C2].
Qed.

Lemma d_div_spec x y : fin x = true -> val y <> 0 -> Rabs (val x / val y) <= big ->
  val (d_div x y) = rnd64 (val x / val y) /\ fin (d_div x y) = true.
Proof.
  intros Fx Hy H.
  pose proof (Binary.Bdiv_correct 53 1024 (eq_refl : FLX.Prec_gt_0 53) (eq_refl : BinarySingleNaN.Prec_lt_emax 53 1024) binop_nan_pl64 mode_NE x y Hy) as C.
  rewrite fexp_eq in C. cbn [round_mode] in C. rewrite rnd64_lt in C by exact H.
  destruct C as (C1 & C2 & _). rewrite Fx in C2. split; [exact C1|exact C2].
Qed.

Lemma d_of_Z_spec z : (Z.abs z <= 9007199254740992)%Z -> val (d_of_Z z) = IZR z /\ fin (d_of_Z z) = true.
Proof.
  intros H.
  pose proof (Binary.binary_normalize_correct 53 1024 prec64 emax64 mode_NE z 0 false) as C.
  rewrite fexp_eq in C. cbn [round_mode] in C.
  assert (EF : F2R (Float radix2 z 0) = IZR z) by (unfold F2R; cbn; lra).
  rewrite EF in C.
  assert (G : rnd64 (IZR z) = IZR z).
  { apply round_generic; [apply valid_rnd_N|].
    apply generic_format_FLT. destruct (Z.eq_dec (Z.abs z) 9007199254740992) as [E|E].
    - exists (Float radix2 (Z.sgn z) 53).
      + unfold F2R; cbn [Fnum Fexp bpow]. change (Z.pow_pos radix2 53) with 9007199254740992%Z.
        rewrite <- mult_IZR. f_equal. lia.
      + cbn. change (Z.pow_pos radix2 53) with 9007199254740992%Z. lia.
      + cbn; lia.
    - exists (Float radix2 z 0); [symmetry; exact EF| |cbn; lia].
      cbn [Fnum]. change (Z.pow radix2 53) with 9007199254740992%Z. lia. }
  rewrite G in C.
  assert (L : Rlt_bool (Rabs (IZR z)) (bpow radix2 1024) = true).
  { rewrite <- G. apply rnd64_lt. rewrite <- abs_IZR. unfold big. apply IZR_le. lia. }
  rewrite L in C. destruct C as (C1 & C2 & _). split; [exact C1|exact C2].
Qed.

Lemma d_mul_err x y : fin x = true -> fin y = true -> Rabs (val x * val y) <= big ->
  exists eps eta, Rabs eps <= u64 /\ Rabs eta <= eta64 /\
    val (d_mul x y) = val x * val y * (1 + eps) + eta /\ fin (d_mul x y) = true.
Proof.
  intros Fx Fy H. destruct (d_mul_spec x y Fx Fy H) as [E F].
  destruct (rnd64_error (val x * val y)) as (eps & eta & H1 & H2 & H3).
  exists eps, eta. rewrite E, H3. auto.
Qed.

Lemma d_div_err x y : fin x = true -> val y <> 0 -> Rabs (val x / val y) <= big ->
  exists eps eta, Rabs eps <= u64 /\ Rabs eta <= eta64 /\
    val (d_div x y) = val x / val y * (1 + eps) + eta /\ fin (d_div x y) = true.
Proof.
  intros Fx Hy H. destruct (d_div_spec x y Fx Hy H) as [E F].
  destruct (rnd64_error (val x / val y)) as (eps & eta & H1 & H2 & H3).
  exists eps, eta. rewrite E, H3. auto.
Qed.

(** C's round() followed by a cast *)
Lemma d_round_spec x : fin x = true ->
  val (d_round x) = IZR (ZnearestA (val x)) /\ fin (d_round x) = true.
Proof.
  intros F.
  destruct (Binary.Bnearbyint_correct 53 1024 emax64 unop_nan_pl64 mode_NA x) as (C1 & C2 & _).
  cbn [round_mode] in C1. rewrite round_FIX_IZR in C1. unfold d_round. rewrite C1, C2.
  split; [reflexivity|exact F].
Qed.

Lemma Btrunc_of_IZR x z : val x = IZR z -> Binary.Btrunc 53 1024 x = z.
Proof.
  intros H. apply eq_IZR. rewrite (Binary.Btrunc_correct 53 1024 emax64). rewrite round_FIX_IZR, H, Ztrunc_IZR. reflexivity.
Qed.

Lemma d_cast_round lo hi x : fin x = true ->
  (lo <= ZnearestA (val x) <= hi)%Z -> d_cast lo hi (d_round x) = Ok (ZnearestA (val x)).
Proof.
  intros F H. destruct (d_round_spec x F) as [V Fr].
  unfold d_cast. rewrite Fr. rewrite (Btrunc_of_IZR _ _ V).
  destruct ((lo <=? ZnearestA (val x))%Z && (ZnearestA (val x) <=? hi)%Z)%bool eqn:E; [reflexivity|lia].
Qed.

Lemma ZnearestA_imp x n : Rabs (x - IZR n) < / 2 -> ZnearestA x = n.
Proof. apply Znearest_imp. Qed.

Lemma d_cast_round_near lo hi x n : fin x = true -> Rabs (val x - IZR n) < / 2 ->
  (lo <= n <= hi)%Z -> d_cast lo hi (d_round x) = Ok n.
Proof.
  intros F H B. rewrite <- (ZnearestA_imp _ _ H) in *. apply d_cast_round; assumption.
Qed.

(** helper: bound of a product of small errors *)
Lemma Rabs_le_mult a b A B : Rabs a <= A -> Rabs b <= B -> Rabs (a * b) <= A * B.
Proof. intros; rewrite Rabs_mult. apply Rmult_le_compat; auto using Rabs_pos. Qed.

Lemma ten7 : val (d_of_Z coordinate_precision) = 10000000 /\ fin (d_of_Z coordinate_precision) = true.
Proof. apply (d_of_Z_spec 10000000). lia. Qed.

Lemma Rabs_IZR_le z m : (Z.abs z <= m)%Z -> Rabs (IZR z) <= IZR m.
Proof. intros H. rewrite <- abs_IZR. apply IZR_le; exact H. Qed.

Lemma fix_to_double_err x : (Z.abs x <= 2147483648)%Z ->
  exists eps eta, Rabs eps <= u64 /\ Rabs eta <= eta64 /\
    val (fix_to_double x) = IZR x / 10000000 * (1 + eps) + eta /\ fin (fix_to_double x) = true.
Proof.
  intros H. destruct (d_of_Z_spec x) as [V F]; [lia|]. destruct ten7 as [V7 F7].
  unfold fix_to_double.
  assert (Hx : Rabs (IZR x) <= 2147483648) by (apply Rabs_IZR_le in H; exact H).
  destruct (d_div_err (d_of_Z x) (d_of_Z coordinate_precision)) as (e & h & H1 & H2 & H3 & H4).
  - exact F.
  - rewrite V7; lra.
  - rewrite V, V7. unfold Rdiv. rewrite Rabs_mult. rewrite (Rabs_pos_eq (/ 10000000)) by lra. unfold big; lra.
  - exists e, h. rewrite V, V7 in H3. auto.
Qed.

Lemma double_to_fix_near c n : fin c = true -> Rabs (val c) <= 1000 -> in_i32 n ->
  Rabs (val c * 10000000 - IZR n) < / 2 - / 100000 ->
  double_to_fix c = Ok n.
Proof.
  intros F Hc Hn Hd. destruct ten7 as [V7 F7]. unfold double_to_fix, d_to_i32.
  destruct (d_mul_err c (d_of_Z coordinate_precision)) as (e & h & H1 & H2 & H3 & H4); [exact F|exact F7| |].
  - rewrite V7. assert (Rabs (val c * 10000000) <= 1000 * 10000000); [|unfold big; lra].
    apply Rabs_le_mult; [exact Hc|]. rewrite Rabs_pos_eq; lra.
  - apply d_cast_round_near; [exact H4| |exact Hn].
    rewrite V7 in H3. rewrite H3.
    replace (val c * 10000000 * (1 + e) + h - IZR n) with ((val c * 10000000 - IZR n) + (val c * 10000000 * e + h)) by ring.
    eapply Rle_lt_trans; [apply Rabs_triang|].
    assert (Rabs (val c * 10000000 * e + h) <= / 100000).
    { eapply Rle_trans; [apply Rabs_triang|].
      assert (Rabs (val c * 10000000 * e) <= 1000 * 10000000 * u64).
      { apply Rabs_le_mult; [|exact H1]. apply Rabs_le_mult; [exact Hc|rewrite Rabs_pos_eq; lra]. }
      pose proof u64_small; pose proof eta64_small. unfold u64 in *. lra. }
    lra.
Qed.

Lemma fix_double_roundtrip x : in_i32 x -> double_to_fix (fix_to_double x) = Ok x.
Proof.
  intros Hx. assert (Ha : (Z.abs x <= 2147483648)%Z) by (unfold in_i32, int32_min, int32_max in Hx; lia).
  destruct (fix_to_double_err x Ha) as (e & h & H1 & H2 & H3 & H4).
  assert (Hxr : Rabs (IZR x) <= 2147483648) by (apply Rabs_IZR_le in Ha; exact Ha).
  pose proof u64_small as Us; pose proof eta64_small as Es.
  assert (Hq : Rabs (IZR x / 10000000) <= 215).
  { unfold Rdiv. rewrite Rabs_mult, (Rabs_pos_eq (/ 10000000)) by lra. lra. }
  assert (Herr : Rabs (IZR x / 10000000 * e + h) <= / 100000000000).
  { eapply Rle_trans; [apply Rabs_triang|].
    assert (Rabs (IZR x / 10000000 * e) <= 215 * u64) by (apply Rabs_le_mult; assumption).
    unfold u64, eta64 in *; lra. }
  apply double_to_fix_near; [exact H4| |exact Hx|].
  - rewrite H3. replace (IZR x / 10000000 * (1 + e) + h) with (IZR x / 10000000 + (IZR x / 10000000 * e + h)) by ring.
    eapply Rle_trans; [apply Rabs_triang|]. lra.
  - rewrite H3. replace ((IZR x / 10000000 * (1 + e) + h) * 10000000 - IZR x)
      with ((IZR x / 10000000 * e + h) * 10000000) by field.
    rewrite Rabs_mult, (Rabs_pos_eq 10000000) by lra. lra.
Qed.

(** C02: accuracy *)

Lemma ZnearestA_half x : Rabs (x - IZR (ZnearestA x)) <= / 2.
Proof. apply Znearest_half. Qed.

Lemma double_to_fix_value c : lonlat_range c ->
  double_to_fix c = Ok (ZnearestA (rnd64 (val c * 10000000))).
Proof.
  intros [F H]. destruct ten7 as [V7 F7].
  assert (Hb : Rabs (val c * 10000000) <= 214 * 10000000) by (apply Rabs_le_mult; [exact H|rewrite Rabs_pos_eq; lra]).
  destruct (d_mul_spec c (d_of_Z coordinate_precision)) as [E Fm]; [exact F|exact F7|rewrite V7; unfold big; lra|].
  rewrite V7 in E. unfold double_to_fix, d_to_i32. rewrite <- E. apply d_cast_round; [exact Fm|].
  rewrite E. destruct (rnd64_error (val c * 10000000)) as (e & h & H1 & H2 & H3).
  pose proof (ZnearestA_half (rnd64 (val c * 10000000))) as Hh.
  assert (Hr : Rabs (rnd64 (val c * 10000000)) <= 2140000001).
  { rewrite H3. replace (val c * 10000000 * (1 + e) + h) with (val c * 10000000 + (val c * 10000000 * e + h)) by ring.
    eapply Rle_trans; [apply Rabs_triang|].
    assert (Rabs (val c * 10000000 * e + h) <= 1).
    { eapply Rle_trans; [apply Rabs_triang|].
      assert (Rabs (val c * 10000000 * e) <= 214 * 10000000 * u64) by (apply Rabs_le_mult; assumption).
      pose proof eta64_small. unfold u64 in *; lra. }
    lra. }
  assert (Rabs (IZR (ZnearestA (rnd64 (val c * 10000000)))) <= 2140000002).
  { replace (IZR (ZnearestA (rnd64 (val c * 10000000)))) with
      (rnd64 (val c * 10000000) - (rnd64 (val c * 10000000) - IZR (ZnearestA (rnd64 (val c * 10000000))))) by ring.
    unfold Rminus at 1. eapply Rle_trans; [apply Rabs_triang|]. rewrite Rabs_Ropp. lra. }
  rewrite <- abs_IZR in H0. apply le_IZR in H0. unfold int32_min, int32_max. lia.
Qed.

Lemma double_to_fix_accurate c : lonlat_range c ->
  exists n, double_to_fix c = Ok n /\ Rabs (IZR n / 10000000 - val c) <= / 20000000 + / 10000000000000.
Proof.
  intros Hr. eexists; split; [apply double_to_fix_value; exact Hr|]. destruct Hr as [F H].
  set (r := rnd64 (val c * 10000000)).
  pose proof (ZnearestA_half r) as Hh.
  destruct (rnd64_error (val c * 10000000)) as (e & h & H1 & H2 & H3). fold r in H3.
  replace (IZR (ZnearestA r) / 10000000 - val c) with
    (- ((r - IZR (ZnearestA r)) / 10000000) + (val c * 10000000 * e + h) / 10000000) by (rewrite H3; field).
  eapply Rle_trans; [apply Rabs_triang|]. rewrite Rabs_Ropp. unfold Rdiv.
  rewrite !Rabs_mult, (Rabs_pos_eq (/ 10000000)) by lra.
  assert (Rabs (val c * 10000000 * e + h) <= / 1000000).
  { eapply Rle_trans; [apply Rabs_triang|].
    assert (Rabs (val c * 10000000 * e) <= 214 * 10000000 * u64).
    { apply Rabs_le_mult; [|exact H1]. apply Rabs_le_mult; [exact H|rewrite Rabs_pos_eq; lra]. }
    pose proof eta64_small. unfold u64 in *; lra. }
  lra.
Qed.

Lemma double_to_fix_monotone c d m n : lonlat_range c -> lonlat_range d -> val c <= val d ->
  double_to_fix c = Ok m -> double_to_fix d = Ok n -> (m <= n)%Z.
Proof.
  intros Hc Hd L Ec Ed. rewrite double_to_fix_value in Ec, Ed by assumption.
  injection Ec as <-; injection Ed as <-.
  apply Zrnd_le; [apply valid_rnd_NA|].
  apply round_le; [apply FLT_exp_valid; reflexivity|apply valid_rnd_N|]. lra.
Qed.

Lemma pos_roundtrip p : in_i32 (px p) -> in_i32 (py p) -> pos_of_lonlat (pos_lon p) (pos_lat p) = Ok p.
Proof.
  intros Hx Hy. unfold pos_of_lonlat, pos_lon, pos_lat.
  rewrite !fix_double_roundtrip by assumption. destruct p; reflexivity.
Qed.
Lemma pos_setters_roundtrip p q : in_i32 (px p) -> in_i32 (py p) ->
  (let! r := pos_set_lon q (pos_lon p) in pos_set_lat r (pos_lat p)) = Ok p.
Proof.
  intros Hx Hy. unfold pos_set_lon, pos_set_lat, pos_lon, pos_lat.
  rewrite fix_double_roundtrip by assumption. cbn [obind px]. rewrite fix_double_roundtrip by assumption.
  destruct p; reflexivity.
Qed.
Lemma fix_to_double_injective x y : in_i32 x -> in_i32 y -> fix_to_double x = fix_to_double y -> x = y.
Proof.
  intros Hx Hy E. apply fix_double_roundtrip in Hx. apply fix_double_roundtrip in Hy. congruence.
Qed.

Lemma double_to_fix_nearest c : lonlat_range c ->
  exists n, double_to_fix c = Ok n /\ in_i32 n /\
    Rabs (IZR n * precision - real_of c) <= precision / 2 + / 10000000000000.
Proof.
  intros H. destruct (double_to_fix_accurate c H) as (n & E & A). exists n. split; [exact E|]. split.
  - unfold double_to_fix, d_to_i32, d_cast in E.
    destruct (Binary.is_finite _ _ _); [|discriminate].
    destruct ((_ <=? _)%Z && _)%bool eqn:B; [|discriminate]. injection E as <-.
    unfold in_i32. lia.
  - unfold precision, real_of in *. unfold Rdiv in *. lra.
Qed.
Lemma double_to_fix_ub c : (forall n, double_to_fix c <> Ok n) <-> double_to_fix c = UB.
Proof.
  split.
  - unfold double_to_fix, d_to_i32, d_cast.
    destruct (Binary.is_finite _ _ _); [|reflexivity].
    destruct ((_ <=? _)%Z && _)%bool; [|reflexivity]. intros H. exfalso. eapply H; reflexivity.
  - intros -> n; discriminate.
Qed.
Lemma C02_ex_proof : lonlat_range (d_of_Z (-180)) /\ double_to_fix (d_of_Z (-180)) = Ok (-1800000000)%Z
  /\ double_to_fix (d_of_Z 300) = UB.
Proof.
  split; [|vm_compute; auto]. destruct (d_of_Z_spec (-180)) as [V F]; [lia|].
  split; [exact F|]. unfold real_of. rewrite V. rewrite <- abs_IZR. apply IZR_le. cbn; lia.
Qed.
