(** printf("%.7f") and atof. *)
From Coq Require Import Reals Lra Floats.SpecFloat.
From Flocq Require Import Core IEEE754.BinarySingleNaN IEEE754.Binary IEEE754.Bits.
From Verif Require Import Base.Prelude Base.Decimal Model.Osm Model.Float Model.Time Model.Attr Model.Decfloat
  Spec.TimeSpec Spec.FloatSpec Spec.DecimalSpec Proofs.TimeProofs Proofs.AttrProofs Proofs.FloatProofs.

(* ---- rounding to an integer ---- *)
Lemma round_ratio_near N D n : 0 < D -> 2 * Z.abs (N - n * D) < D -> round_ratio N D = n.
Proof.
  intros HD H. unfold round_ratio.
  destruct (Z_le_gt_dec (n * D) N) as [L|G].
  - assert (Q : N / D = n). { symmetry. apply Z.div_unique with (N - n * D); lia. }
    assert (R : N mod D = N - n * D). { rewrite Z.mod_eq by lia. rewrite Q. lia. }
    rewrite Q, R. destruct (Z.compare_spec (2 * (N - n * D)) D); lia.
  - assert (Q : N / D = n - 1). { symmetry. apply Z.div_unique with (N - (n - 1) * D); lia. }
    assert (R : N mod D = N - (n - 1) * D). { rewrite Z.mod_eq by lia. rewrite Q. lia. }
    rewrite Q, R. destruct (Z.compare_spec (2 * (N - (n - 1) * D)) D); lia.
Qed.
Lemma scaled_near k m e n : 0 <= k -> (Rabs (F2R (Float radix2 m e) * IZR (10 ^ k) - IZR n) < / 2)%R -> scaled k m e = n.
Proof.
  intros Hk H. unfold scaled. destruct (Z.ltb_spec e 0) as [L|L].
  - apply round_ratio_near; [apply Z.pow_pos_nonneg; lia|].
    set (D := 2 ^ (- e)). assert (HD : 0 < D) by (apply Z.pow_pos_nonneg; lia).
    assert (E : F2R (Float radix2 m e) = (IZR m / IZR D)%R).
    { unfold F2R. cbn [Fnum Fexp]. rewrite <- (Z.opp_involutive e), bpow_opp. unfold Rdiv. f_equal. f_equal.
      rewrite <- IZR_Zpower by lia. reflexivity. }
    rewrite E in H. assert (HDR : (0 < IZR D)%R) by (apply IZR_lt; exact HD).
    apply lt_IZR. rewrite mult_IZR, abs_IZR, minus_IZR, !mult_IZR.
    replace (IZR m * IZR (10 ^ k) - IZR n * IZR D)%R with ((IZR m / IZR D * IZR (10 ^ k) - IZR n) * IZR D)%R by (field; lra).
    rewrite Rabs_mult, (Rabs_pos_eq (IZR D)) by lra.
    apply Rmult_lt_compat_r with (r := IZR D) in H; [|lra]. lra.
  - assert (E : F2R (Float radix2 m e) = IZR (m * 2 ^ e)).
    { unfold F2R. cbn [Fnum Fexp]. rewrite <- IZR_Zpower by lia. rewrite <- mult_IZR. reflexivity. }
    rewrite E, <- mult_IZR, <- minus_IZR, <- abs_IZR in H.
    assert (Z.abs (m * 2 ^ e * 10 ^ k - n) < 1); [|lia]. apply lt_IZR. lra.
Qed.

(* ---- %.7f of a coordinate ---- *)
Lemma fix_to_double_near x : in_i32 x ->
  fin (fix_to_double x) = true /\ (Rabs (val (fix_to_double x) * 10000000 - IZR x) <= / 1000)%R.
Proof.
  intros Hx. assert (Ha : (Z.abs x <= 2147483648)%Z) by (unfold in_i32, int32_min, int32_max in Hx; lia).
  destruct (fix_to_double_err x Ha) as (e & h & H1 & H2 & H3 & H4). split; [exact H4|].
  assert (Hxr : (Rabs (IZR x) <= 2147483648)%R) by (apply Rabs_IZR_le in Ha; exact Ha).
  pose proof u64_small as Us; pose proof eta64_small as Es.
  rewrite H3. replace ((IZR x / 10000000 * (1 + e) + h) * 10000000 - IZR x)%R with (IZR x * e + h * 10000000)%R by field.
  eapply Rle_trans; [apply Rabs_triang|].
  assert ((Rabs (IZR x * e) <= 2147483648 * u64)%R) by (apply Rabs_le_mult; assumption).
  rewrite (Rabs_mult h), (Rabs_pos_eq 10000000) by lra. unfold u64, eta64 in *. lra.
Qed.
Lemma printf_coord x : in_i32 x -> printf_f 7 (fix_to_double x) = (sign_text (x <? 0)%Z ++ print_point 7 (Z.abs x))%string.
Proof.
  intros Hx. destruct (Z.eq_dec x 0) as [->|N]; [vm_compute; reflexivity|].
  destruct (fix_to_double_near x Hx) as [F H].
  assert (N1 : (1 <= Rabs (IZR x))%R). { rewrite <- abs_IZR. apply IZR_le. lia. }
  destruct (fix_to_double x) as [s|s|s pl pe|s m e B]; try discriminate F.
  - exfalso. cbn [B2R] in H. revert H. replace (0 * 10000000 - IZR x)%R with (- IZR x)%R by ring. rewrite Rabs_Ropp. lra.
  - cbn [printf_f]. cbn [B2R] in H. assert (P : (0 < F2R (Float radix2 (Zpos m) e))%R) by (apply F2R_gt_0; reflexivity).
    destruct s; cbn [cond_Zopp] in H.
    + rewrite F2R_Zopp in H. assert (x < 0).
      { apply lt_IZR. apply Rabs_def2b in H || idtac. revert H. unfold Rabs. destruct (Rcase_abs _); intros; revert N1; unfold Rabs; destruct (Rcase_abs (IZR x)); intros; lra. }
      replace (x <? 0) with true by (symmetry; apply Z.ltb_lt; exact H0). do 2 f_equal.
      apply scaled_near; [lia|]. rewrite abs_IZR. rewrite (Rabs_left (IZR x)) by (apply IZR_lt; exact H0).
      change (IZR (10 ^ Z.of_nat 7)) with 10000000%R.
      rewrite <- Rabs_Ropp. eapply Rle_lt_trans; [|instantiate (1 := (/1000)%R); lra].
      eapply Rle_trans; [|exact H]. right. f_equal. ring.
    + assert (0 < x).
      { apply lt_IZR. revert H. unfold Rabs. destruct (Rcase_abs _); intros; revert N1; unfold Rabs; destruct (Rcase_abs (IZR x)); intros; lra. }
      replace (x <? 0) with false by (symmetry; apply Z.ltb_ge; lia). do 2 f_equal.
      apply scaled_near; [lia|]. rewrite abs_IZR. rewrite (Rabs_pos_eq (IZR x)) by (apply IZR_le; lia).
      change (IZR (10 ^ Z.of_nat 7)) with 10000000%R. lra.
Qed.

(* ---- reading decimal text ---- *)
Lemma scan_print_fixed k : forall b a tl, 0 <= b < 10 ^ Z.of_nat k ->
  scan_digits (print_fixed k b ++ tl) a = scan_digits tl (a * 10 ^ Z.of_nat k + b).
Proof.
  induction k as [|k IH]; intros b a tl Hb.
  - change (10 ^ Z.of_nat 0) with 1 in *. cbn [print_fixed String.append]. f_equal. lia.
  - cbn [print_fixed]. rewrite sapp_assoc. cbn [String.append].
    replace (Z.of_nat (S k)) with (Z.of_nat k + 1) in * by lia. rewrite Z.pow_add_r in * by lia. change (10 ^ 1) with 10 in *.
    rewrite IH by lia. cbn [scan_digits]. rewrite digit_char_digit, digit_char_val by lia.
    f_equal. lia.
Qed.
Lemma print_fixed_length k : forall b, String.length (print_fixed k b) = k.
Proof. induction k; intros; cbn [print_fixed]; [reflexivity|]. rewrite sapp_length, IHk. cbn. lia. Qed.
Lemma starts_digit_fixed k b : (0 < k)%nat -> 0 <= b < 10 ^ Z.of_nat k -> starts_digit (print_fixed k b) = true.
Proof.
  revert b. induction k as [|k IH]; intros b Hk Hb; [lia|]. cbn [print_fixed]. destruct k as [|k].
  - cbn [print_fixed String.append starts_digit]. apply digit_char_digit. lia.
  - assert (S1 : starts_digit (print_fixed (S k) (b / 10)) = true).
    { apply IH; [lia|]. replace (Z.of_nat (S (S k))) with (Z.of_nat (S k) + 1) in Hb by lia. rewrite Z.pow_add_r in Hb by lia. change (10 ^ 1) with 10 in Hb. lia. }
    destruct (print_fixed (S k) (b / 10)); [discriminate|]. exact S1.
Qed.
Lemma scan_number s : forall acc n, scan_digits s acc = (n, ""%string) -> digits_from acc s = Some n.
Proof.
  induction s as [|c r IH]; intros acc n E; cbn [scan_digits digits_from] in *; [congruence|].
  rewrite digit_eq. destruct (is_digit c); [|discriminate]. rewrite <- (IH _ _ E). f_equal. lia.
Qed.
Lemma print_number n : 0 <= n -> number (print_nonneg n) n.
Proof.
  intros Hn. split; [destruct (print_nonneg_head n Hn) as (c & r & -> & _); discriminate|].
  apply scan_number. rewrite <- (sapp_nil_r (print_nonneg n)). apply scan_print; [exact Hn|reflexivity].
Qed.
Lemma print_fixed_number k b : forall a, 0 <= b < 10 ^ Z.of_nat k -> digits_from a (print_fixed k b) = Some (a * 10 ^ Z.of_nat k + b).
Proof.
  intros a Hb. apply scan_number. rewrite <- (sapp_nil_r (print_fixed k b)), (scan_print_fixed k b a ""%string Hb). reflexivity.
Qed.
(* ---- any decimal text ---- *)
Lemma number_nonneg s n : number s n -> 0 <= n.
Proof. intros [_ H]. eapply digits_from_bound in H; [|lia]. destruct H. nia. Qed.
Lemma number_app_scan ds fs n : number (ds ++ fs) n -> exists m,
  scan_digits (ds ++ String "." fs) 0 = (m, String "." fs) /\ scan_digits fs m = (n, ""%string) /\ starts_digit ds || starts_digit fs = true.
Proof.
  intros [NE H]. rewrite digits_from_app in H. destruct (digits_from 0 ds) as [m|] eqn:E; [|discriminate].
  exists m. split; [apply digits_from_scan; [exact E|reflexivity]|]. split.
  - rewrite <- (sapp_nil_r fs). apply digits_from_scan; [exact H|reflexivity].
  - destruct ds as [|c r].
    + destruct fs as [|c r]; [exfalso; apply NE; reflexivity|]. cbn [digits_from] in H. rewrite digit_eq in H. cbn. destruct (is_digit c); [reflexivity|discriminate].
    + cbn [digits_from] in E. rewrite digit_eq in E. cbn. destruct (is_digit c); [reflexivity|discriminate].
Qed.
Lemma read_sign_text sp sg neg s : all_blank sp -> sign_of sg neg -> starts_digit s = true \/ (exists r, s = String "." r) ->
  read_sign (skip_space (sp ++ sg ++ s)) = (neg, s).
Proof.
  intros B S H. rewrite skip_space_app; [|exact B|].
  - destruct S; cbn [String.append]; try reflexivity. destruct H as [H|[r ->]]; [|reflexivity].
    destruct s as [|c r]; [discriminate|]. cbn in H. destruct (digit_not_sign c H) as [D1 D2]. cbn [read_sign]. rewrite D1, D2. reflexivity.
  - destruct S; cbn [String.append]; try reflexivity. destruct H as [H|[r ->]]; [|reflexivity].
    destruct s as [|c r]; [exact I|]. apply digit_not_space. exact H.
Qed.
Lemma number_starts ds n : number ds n -> starts_digit ds = true.
Proof. intros H. destruct (number_head ds n H) as (c & r & -> & D). exact D. Qed.
Lemma exponent_read b e : exponent b e -> read_exponent b = e.
Proof.
  intros E. destruct E as [|c sg neg ds n C S N]; [reflexivity|]. cbn [read_exponent].
  replace (Ascii.eqb c "e" || Ascii.eqb c "E") with true by (destruct C as [-> | ->]; reflexivity).
  pose proof (read_sign_text "" sg neg ds I S (or_introl (number_starts _ _ N))) as R. cbn [String.append] in R.
  assert (SK : skip_space (sg ++ ds) = (sg ++ ds)%string).
  { destruct (number_head ds n N) as (d & r & -> & D). destruct S; cbn [String.append skip_space]; try reflexivity. rewrite (digit_not_space d D). reflexivity. }
  rewrite SK in R. rewrite R. rewrite (number_starts _ _ N). destruct N as [_ N].
  pose proof (digits_from_scan ds 0 n "" N eq_refl) as Sc. rewrite sapp_nil_r in Sc. rewrite Sc. reflexivity.
Qed.
Lemma exponent_stop b e : exponent b e -> starts_digit b = false /\ (forall c r, b = String c r -> Ascii.eqb c "." = false).
Proof. intros E. destruct E as [|c sg neg ds n C S N]; [split; [reflexivity|discriminate]|]. destruct C as [-> | ->]; (split; [reflexivity|intros c r H; injection H as <- <-; reflexivity]). Qed.
Lemma starts_digit_app a b : starts_digit a = true -> starts_digit (a ++ b) = true.
Proof. destruct a; [discriminate|exact (fun H => H)]. Qed.
Lemma scan_mantissa a b neg n k e : mantissa a neg n k -> exponent b e -> scan_decimal (a ++ b) = Some (neg, n, e - k).
Proof.
  intros M E. destruct (exponent_stop b e E) as [SB DB]. unfold scan_decimal. destruct M as [sp sg neg ds n B S N|sp sg neg ds fs n B S N].
  - replace ((sp ++ sg ++ ds) ++ b)%string with (sp ++ sg ++ (ds ++ b))%string by (rewrite !sapp_assoc; reflexivity).
    rewrite (read_sign_text sp sg neg (ds ++ b) B S (or_introl (starts_digit_app _ b (number_starts _ _ N)))). cbv beta iota.
    rewrite (starts_digit_app ds b (number_starts _ _ N)). destruct N as [_ N]. rewrite (digits_from_scan ds 0 n b N SB). cbv beta iota.
    destruct b as [|c r]; [rewrite (exponent_read _ _ E); reflexivity|]. rewrite (DB c r eq_refl). rewrite (exponent_read _ _ E). reflexivity.
  - replace ((sp ++ sg ++ ds ++ "." ++ fs) ++ b)%string with (sp ++ sg ++ (ds ++ String "." (fs ++ b)))%string by (rewrite !sapp_assoc; reflexivity).
    assert (ST : starts_digit (ds ++ String "." (fs ++ b)) = true \/ (exists r, (ds ++ String "." (fs ++ b))%string = String "." r)).
    { destruct ds as [|c r]; [right; eexists; reflexivity|left]. cbn [String.append starts_digit]. destruct N as [_ N]. cbn [String.append digits_from] in N. rewrite digit_eq in N.
      destruct (is_digit c); [reflexivity|discriminate]. }
    rewrite (read_sign_text sp sg neg _ B S ST). cbv beta iota.
    destruct N as [NE H]. rewrite digits_from_app in H. destruct (digits_from 0 ds) as [m|] eqn:ED; [|discriminate].
    rewrite (digits_from_scan ds 0 m (String "." (fs ++ b)) ED eq_refl). cbv beta iota. change (Ascii.eqb "." ".") with true. cbv beta iota.
    rewrite (digits_from_scan fs m n b H SB). cbv beta iota. rewrite (exponent_read _ _ E).
    assert (OK : starts_digit (ds ++ String "." (fs ++ b)) || starts_digit (fs ++ b) = true).
    { destruct ds as [|c r].
      - destruct fs as [|c r]; [exfalso; apply NE; reflexivity|]. cbn [digits_from] in ED. injection ED as <-. cbn [digits_from] in H. rewrite digit_eq in H. cbn. destruct (is_digit c); [reflexivity|discriminate].
      - cbn [digits_from] in ED. rewrite digit_eq in ED. cbn. destruct (is_digit c); [reflexivity|discriminate]. }
    rewrite OK. rewrite sapp_length. do 2 f_equal. lia.
Qed.
Lemma mantissa_nonneg a neg n k : mantissa a neg n k -> 0 <= n /\ 0 <= k.
Proof. intros [sp sg ng ds m B S N|sp sg ng ds fs m B S N]; split; try lia; exact (number_nonneg _ _ N). Qed.
Lemma print_point_mantissa k s n : 0 <= n -> mantissa (sign_text s ++ print_point k n) s n (Z.of_nat k).
Proof.
  intros Hn. assert (P : 0 < 10 ^ Z.of_nat k) by (apply Z.pow_pos_nonneg; lia).
  assert (Hq : 0 <= n / 10 ^ Z.of_nat k) by (apply Z.div_pos; lia).
  assert (Hr : 0 <= n mod 10 ^ Z.of_nat k < 10 ^ Z.of_nat k) by (apply Z.mod_pos_bound; lia).
  assert (S : sign_of (sign_text s) s) by (destruct s; constructor).
  assert (N : number (print_nonneg (n / 10 ^ Z.of_nat k) ++ print_fixed k (n mod 10 ^ Z.of_nat k)) n).
  { split.
    - destruct (print_nonneg_head (n / 10 ^ Z.of_nat k)) as (c & r & -> & _); [exact Hq|discriminate].
    - rewrite digits_from_app. destruct (print_number (n / 10 ^ Z.of_nat k) Hq) as [_ ->].
      rewrite print_fixed_number by exact Hr. f_equal. rewrite (Z.mul_comm _ (10 ^ Z.of_nat k)). symmetry. apply Z.div_mod. lia. }
  pose proof (mantissa_frac "" _ _ _ _ _ I S N) as M. rewrite print_fixed_length in M. exact M.
Qed.
Lemma atof_print_point k s n : 0 <= n -> atof (sign_text s ++ print_point k n) = d_of_decimal s n (- Z.of_nat k).
Proof.
  intros Hn. pose proof (scan_mantissa _ _ _ _ _ _ (print_point_mantissa k s n Hn) exponent_none) as E. rewrite sapp_nil_r in E.
  unfold atof. rewrite E. reflexivity.
Qed.

(* ---- the nearest double ---- *)
Lemma d_of_ratio_spec s m n : (IZR (Zpos m) / IZR (Zpos n) <= big)%R ->
  val (d_of_ratio s m n) = rnd64 (IZR (cond_Zopp s (Zpos m)) / IZR (Zpos n)) /\ fin (d_of_ratio s m n) = true.
Proof.
  intros H. unfold d_of_ratio. rewrite Binary.B2R_BSN2B, Binary.is_finite_BSN2B.
  rewrite BinarySingleNaN.B2R_SF2B, BinarySingleNaN.is_finite_SF2B.
  pose proof (BinarySingleNaN.Bdiv_correct_aux 53 1024 prec64 emax64 mode_NE s m 0 false n 0) as C. cbv zeta in C.
  destruct C as [_ C]. rewrite !F2R_cond_Zopp in C. unfold F2R in C. cbn [Fnum Fexp cond_Ropp bpow] in C. rewrite !Rmult_1_r in C.
  rewrite fexp_eq in C. cbn [round_mode] in C.
  assert (P : (0 < IZR (Zpos m) / IZR (Zpos n))%R).
  { apply Rmult_lt_0_compat; [apply IZR_lt; reflexivity|]. apply Rinv_0_lt_compat. apply IZR_lt. reflexivity. }
  rewrite rnd64_lt in C.
  - destruct C as (C1 & C2 & _). split; [|exact C2]. rewrite C1. f_equal. f_equal. destruct s; [|reflexivity]. cbn [cond_Ropp cond_Zopp]. rewrite opp_IZR. reflexivity.
  - destruct s; cbn [cond_Ropp].
    + unfold Rdiv. rewrite Ropp_mult_distr_l_reverse, Rabs_Ropp. fold (Rdiv (IZR (Zpos m)) (IZR (Zpos n))). rewrite Rabs_pos_eq; lra.
    + rewrite Rabs_pos_eq; lra.
Qed.
Lemma d_of_decimal_spec s n k : 0 <= n -> 0 <= k -> (IZR n / IZR (10 ^ k) <= big)%R ->
  val (d_of_decimal s n (- k)) = rnd64 (IZR (if s then - n else n) / IZR (10 ^ k)) /\ fin (d_of_decimal s n (- k)) = true.
Proof.
  intros Hn Hk H. assert (P : 0 < 10 ^ k) by (apply Z.pow_pos_nonneg; lia). destruct n as [|p|p]; [| |lia].
  - cbn [d_of_decimal]. split; [|reflexivity]. cbn [B2R]. change (if s then - 0 else 0) with (if s then 0 else 0).
    replace (if s then 0 else 0) with 0 by (destruct s; reflexivity). unfold Rdiv. rewrite Rmult_0_l. symmetry. apply round_0. apply valid_rnd_N.
  - cbn [d_of_decimal]. assert (E : IZR (if s then - Zpos p else Zpos p) = IZR (cond_Zopp s (Zpos p))) by (destruct s; reflexivity). rewrite E.
    destruct (Z.ltb_spec (- k) 0).
    + rewrite Z.opp_involutive. rewrite <- (Z2Pos.id (10 ^ k)) in H |- * by exact P. rewrite Z2Pos.id at 1 by lia. apply d_of_ratio_spec. exact H.
    + replace k with 0 in * by lia. change (10 ^ (- 0)) with 1. change (10 ^ 0) with 1 in *. rewrite Z.mul_1_r.
      cbn [Z.to_pos]. apply d_of_ratio_spec. exact H.
Qed.
Lemma finite_strict d : fin d = true -> val d <> 0%R -> Binary.is_finite_strict 53 1024 d = true.
Proof. destruct d; cbn; intros; congruence. Qed.
Lemma rnd64_coord_nonzero x : x <> 0 -> Z.abs x <= 2147483648 -> rnd64 (IZR x / 10000000) <> 0%R.
Proof.
  intros N Hx E. destruct (rnd64_error (IZR x / 10000000)) as (e & h & He & Hh & R). rewrite E in R.
  pose proof u64_small. pose proof eta64_small.
  assert (N1 : (1 <= Rabs (IZR x))%R). { rewrite <- abs_IZR. apply IZR_le. lia. }
  assert (Q : (Rabs (IZR x / 10000000) * Rabs (1 + e) = Rabs h)%R).
  { rewrite <- Rabs_mult. replace (IZR x / 10000000 * (1 + e))%R with (- h)%R by lra. apply Rabs_Ropp. }
  assert (A : (1 - u64 <= Rabs (1 + e))%R). { replace (1 + e)%R with (1 - (- e))%R by ring. eapply Rle_trans; [|apply Rabs_triang_inv]. rewrite Rabs_R1, Rabs_Ropp. lra. }
  assert (B : (/ 10000000 <= Rabs (IZR x / 10000000))%R). { unfold Rdiv. rewrite Rabs_mult, (Rabs_pos_eq (/ 10000000)) by lra. lra. }
  assert (C : (/ 10000000 * (1 - u64) <= Rabs (IZR x / 10000000) * Rabs (1 + e))%R) by (apply Rmult_le_compat; lra).
  lra.
Qed.
Lemma d_of_decimal_coord x : in_i32 x -> d_of_decimal (x <? 0) (Z.abs x) (- 7) = fix_to_double x.
Proof.
  intros Hx. destruct (Z.eq_dec x 0) as [->|N]; [vm_compute; reflexivity|].
  assert (Ha : (Z.abs x <= 2147483648)%Z) by (unfold in_i32, int32_min, int32_max in Hx; lia).
  assert (Hxr : (Rabs (IZR x) <= 2147483648)%R) by (apply Rabs_IZR_le in Ha; exact Ha).
  destruct (d_of_decimal_spec (x <? 0) (Z.abs x) 7) as [V F].
  - lia.
  - lia.
  - change (IZR (10 ^ 7)) with 10000000%R. rewrite abs_IZR. unfold big. lra.
  - change (IZR (10 ^ 7)) with 10000000%R in V.
    replace (if x <? 0 then - Z.abs x else Z.abs x) with x in V by (destruct (Z.ltb_spec x 0); lia).
    destruct (d_of_Z_spec x) as [VX FX]; [lia|]. destruct ten7 as [V7 F7].
    destruct (d_div_spec (d_of_Z x) (d_of_Z coordinate_precision)) as [VD FD].
    + exact FX.
    + rewrite V7; lra.
    + rewrite VX, V7. unfold Rdiv. rewrite Rabs_mult, (Rabs_pos_eq (/ 10000000)) by lra. unfold big. lra.
    + rewrite VX, V7 in VD. fold (fix_to_double x) in VD, FD.
      pose proof (rnd64_coord_nonzero x N Ha) as NZ.
      apply Binary.B2R_inj; [apply finite_strict; [exact F|]|apply finite_strict; [exact FD|]|].
      * intros E. apply NZ. rewrite <- V. exact E.
      * intros E. apply NZ. rewrite <- VD. exact E.
      * exact (eq_trans V (eq_sym VD)).
Qed.
(** a coordinate printed with seven decimals and read again is the same double *)
Lemma coord_text x : in_i32 x -> atof (printf_f 7 (fix_to_double x)) = fix_to_double x.
Proof.
  intros Hx. rewrite printf_coord by exact Hx. rewrite atof_print_point by lia. apply d_of_decimal_coord. exact Hx.
Qed.

Lemma powerRZ_neg k : 0 <= k -> powerRZ 10 (- k) = (/ IZR (10 ^ k))%R.
Proof. intros Hk. rewrite <- (bpow_powerRZ (Build_radix 10 eq_refl)), bpow_opp. f_equal. rewrite <- IZR_Zpower by exact Hk. reflexivity. Qed.
Lemma powerRZ_pos k : 0 <= k -> powerRZ 10 k = IZR (10 ^ k).
Proof. intros Hk. rewrite <- (bpow_powerRZ (Build_radix 10 eq_refl)). rewrite <- IZR_Zpower by exact Hk. reflexivity. Qed.
Lemma d_of_decimal_gen s n e : 0 <= n -> (IZR n * powerRZ 10 e <= big)%R ->
  val (d_of_decimal s n e) = rnd64 (IZR (if s then - n else n) * powerRZ 10 e) /\ fin (d_of_decimal s n e) = true.
Proof.
  intros Hn H. destruct (Z_lt_le_dec e 0) as [L|L].
  - replace e with (- (- e)) in * by lia. rewrite powerRZ_neg in * by lia. apply d_of_decimal_spec; [exact Hn|lia|exact H].
  - rewrite powerRZ_pos in * by exact L. assert (P : 0 < 10 ^ e) by (apply Z.pow_pos_nonneg; lia).
    destruct n as [|p|p]; [| |lia].
    + destruct (d_of_decimal_spec s 0 0) as [V F]; [lia|lia|unfold big; lra|]. cbn [d_of_decimal] in *. split; [|exact F].
      rewrite V. f_equal. replace (if s then - 0 else 0) with 0 by (destruct s; reflexivity). unfold Rdiv. rewrite !Rmult_0_l. reflexivity.
    + cbn [d_of_decimal]. replace (e <? 0) with false by (symmetry; apply Z.ltb_ge; exact L).
      destruct (d_of_ratio_spec s (Z.to_pos (Zpos p * 10 ^ e)) 1) as [V F].
      * rewrite Z2Pos.id by lia. rewrite mult_IZR. unfold Rdiv. rewrite Rinv_1, Rmult_1_r. exact H.
      * split; [|exact F]. rewrite V. f_equal. rewrite Z2Pos.id by lia. unfold Rdiv. rewrite Rinv_1, Rmult_1_r. destruct s; cbn [cond_Zopp]; rewrite <- mult_IZR; f_equal; lia.
Qed.
Lemma powerRZ10_pos e : (0 < powerRZ 10 e)%R.
Proof. apply powerRZ_lt. lra. Qed.
Lemma atof_decimal s r : decimal s r -> (Rabs r <= big)%R -> val (atof s) = rnd64 r /\ fin (atof s) = true.
Proof.
  intros D Hr. destruct D as [a b neg n k e M E]. destruct (mantissa_nonneg _ _ _ _ M) as [Hn Hk].
  unfold atof. rewrite (scan_mantissa a b neg n k e M E). apply d_of_decimal_gen; [exact Hn|].
  rewrite Rabs_mult, (Rabs_pos_eq (powerRZ 10 (e - k))) in Hr by (left; apply powerRZ10_pos).
  replace (IZR n) with (Rabs (IZR (if neg then - n else n))); [exact Hr|]. rewrite <- abs_IZR. f_equal. destruct neg; lia.
Qed.
Lemma decimal_unique s r r' : decimal s r -> decimal s r' -> r = r'.
Proof.
  intros [a b neg n k e M E] D. remember (a ++ b)%string as t. destruct D as [a' b' neg' n' k' e' M' E'].
  pose proof (scan_mantissa _ _ _ _ _ _ M E) as A. pose proof (scan_mantissa _ _ _ _ _ _ M' E') as B. rewrite <- Heqt, B in A. injection A as -> -> H. rewrite H. reflexivity.
Qed.
(** the usual forms *)
Lemma decimal_int sp sg neg ds n : all_blank sp -> sign_of sg neg -> number ds n -> decimal (sp ++ sg ++ ds) (IZR (if neg then - n else n)).
Proof.
  intros B S N. pose proof (decimal_intro _ _ _ _ _ _ (mantissa_int sp sg neg ds n B S N) exponent_none) as D. rewrite sapp_nil_r in D.
  change (powerRZ 10 (0 - 0)) with 1%R in D. rewrite Rmult_1_r in D. exact D.
Qed.
Lemma decimal_frac sp sg neg ds fs n : all_blank sp -> sign_of sg neg -> number (ds ++ fs) n ->
  decimal (sp ++ sg ++ ds ++ "." ++ fs) (IZR (if neg then - n else n) / IZR (10 ^ Z.of_nat (String.length fs))).
Proof.
  intros B S N. pose proof (decimal_intro _ _ _ _ _ _ (mantissa_frac sp sg neg ds fs n B S N) exponent_none) as D. rewrite sapp_nil_r in D.
  unfold Rdiv. rewrite <- powerRZ_neg by lia. exact D.
Qed.
(** a coordinate text is stored to the nearest seventh decimal *)
Lemma coordinate_text s r : decimal s r -> coordinate_range r ->
  exists n, double_to_fix (atof s) = Ok n /\ in_i32 n /\ (Rabs (IZR n * precision - r) <= precision / 2 + / 1000000000000)%R.
Proof.
  intros D [Hl Hu]. unfold precision in *.
  assert (Hr : (Rabs r <= 215)%R) by (apply Rabs_le; lra).
  destruct (atof_decimal s r D) as [V F]; [unfold big; lra|].
  destruct (rnd64_error r) as (e & h & He & Hh & E). pose proof u64_small. pose proof eta64_small.
  assert (X : (Rabs (val (atof s) - r) <= / 10000000000000)%R).
  { rewrite V, E. replace (r * (1 + e) + h - r)%R with (r * e + h)%R by ring. eapply Rle_trans; [apply Rabs_triang|].
    assert ((Rabs (r * e) <= 215 * u64)%R) by (apply Rabs_le_mult; assumption). unfold u64, eta64 in *. lra. }
  assert (Hv : (Rabs (val (atof s)) <= 216)%R).
  { replace (val (atof s)) with (r + (val (atof s) - r))%R by ring. eapply Rle_trans; [apply Rabs_triang|]. lra. }
  destruct ten7 as [V7 F7].
  destruct (d_mul_err (atof s) (d_of_Z coordinate_precision)) as (e' & h' & H1 & H2 & H3 & H4); [exact F|exact F7| |].
  { rewrite V7. assert ((Rabs (val (atof s) * 10000000) <= 216 * 10000000)%R); [|unfold big; lra]. apply Rabs_le_mult; [exact Hv|]. rewrite Rabs_pos_eq; lra. }
  rewrite V7 in H3. set (q := val (d_mul (atof s) (d_of_Z coordinate_precision))) in *.
  assert (Y : (Rabs (q - val (atof s) * 10000000) <= / 1000000)%R).
  { rewrite H3. replace (val (atof s) * 10000000 * (1 + e') + h' - val (atof s) * 10000000)%R with (val (atof s) * 10000000 * e' + h')%R by ring.
    eapply Rle_trans; [apply Rabs_triang|].
    assert ((Rabs (val (atof s) * 10000000 * e') <= 216 * 10000000 * u64)%R).
    { apply Rabs_le_mult; [|exact H1]. apply Rabs_le_mult; [exact Hv|rewrite Rabs_pos_eq; lra]. }
    unfold u64, eta64 in *. lra. }
  assert (Z' : (Rabs (q - r * 10000000) <= / 1000000 + / 1000000)%R).
  { replace (q - r * 10000000)%R with ((q - val (atof s) * 10000000) + (val (atof s) - r) * 10000000)%R by ring.
    eapply Rle_trans; [apply Rabs_triang|]. rewrite Rabs_mult, (Rabs_pos_eq 10000000) by lra. lra. }
  pose proof (ZnearestA_half q) as Hn. apply Rabs_le_inv in Hn. apply Rabs_le_inv in Z'.
  assert (I : in_i32 (ZnearestA q)).
  { assert (IZR (-2147483649) < IZR (ZnearestA q) < IZR 2147483648)%R as [A B] by lra. apply lt_IZR in A. apply lt_IZR in B. unfold in_i32, int32_min, int32_max. lia. }
  exists (ZnearestA q). split; [|split; [exact I|apply Rabs_le; lra]].
  unfold double_to_fix, d_to_i32. apply d_cast_round; [exact H4|exact I].
Qed.
Lemma coordinate_text_exact s n : decimal s (IZR n / 10000000) -> in_i32 n -> double_to_fix (atof s) = Ok n.
Proof.
  intros D Hx. assert (Ha : (Z.abs n <= 2147483648)%Z) by (unfold in_i32, int32_min, int32_max in Hx; lia).
  assert (Hxr : (Rabs (IZR n) <= 2147483648)%R) by (apply Rabs_IZR_le in Ha; exact Ha).
  assert (HQ : (Rabs (IZR n / 10000000) <= 215)%R). { unfold Rdiv. rewrite Rabs_mult, (Rabs_pos_eq (/ 10000000)) by lra. lra. }
  destruct (atof_decimal s _ D) as [V F]; [unfold big; lra|].
  destruct (rnd64_error (IZR n / 10000000)) as (e & h & He & Hh & E). pose proof u64_small. pose proof eta64_small.
  assert (X : (Rabs (val (atof s) - IZR n / 10000000) <= / 1000000000000)%R).
  { rewrite V, E. replace (IZR n / 10000000 * (1 + e) + h - IZR n / 10000000)%R with (IZR n / 10000000 * e + h)%R by ring. eapply Rle_trans; [apply Rabs_triang|].
    assert ((Rabs (IZR n / 10000000 * e) <= 215 * u64)%R) by (apply Rabs_le_mult; assumption). unfold u64, eta64 in *. lra. }
  apply double_to_fix_near; [exact F| |exact Hx|].
  - replace (val (atof s)) with (IZR n / 10000000 + (val (atof s) - IZR n / 10000000))%R by ring. eapply Rle_trans; [apply Rabs_triang|]. lra.
  - replace (val (atof s) * 10000000 - IZR n)%R with ((val (atof s) - IZR n / 10000000) * 10000000)%R by field.
    rewrite Rabs_mult, (Rabs_pos_eq 10000000) by lra. lra.
Qed.
