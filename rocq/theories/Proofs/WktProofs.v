(** WKT text: the numbers are exact and can be read back. *)
From Coq Require Import Reals Lra Floats.SpecFloat.
From Flocq Require Import Core IEEE754.BinarySingleNaN IEEE754.Binary IEEE754.Bits.
From Verif Require Import Base.Prelude Base.Decimal Model.Osm Model.Float Model.Time Model.Attr Model.Decfloat Model.Geom Model.Wkt
  Spec.TimeSpec Spec.FloatSpec Spec.DecimalSpec Spec.WktSpec Proofs.TimeProofs Proofs.AttrProofs Proofs.FloatProofs Proofs.DecfloatProofs.

Definition r10 : radix := Build_radix 10 eq_refl.
Lemma bpow10_nonneg k : 0 <= k -> bpow r10 k = IZR (10 ^ k).
Proof. intros H. rewrite <- IZR_Zpower by exact H. reflexivity. Qed.
Lemma bpow10_neg k : k < 0 -> bpow r10 k = (/ IZR (10 ^ (- k)))%R.
Proof. intros H. rewrite <- (Z.opp_involutive k) at 1. rewrite bpow_opp, bpow10_nonneg by lia. reflexivity. Qed.
Lemma pow10_pos k : 0 <= k -> (0 < IZR (10 ^ k))%R.
Proof. intros H. apply IZR_lt. apply Z.pow_pos_nonneg; lia. Qed.
Lemma pow10_le_spec k n d : 0 < d -> pow10_le k n d = true <-> (bpow r10 k <= IZR n / IZR d)%R.
Proof.
  intros Hd. assert (HD : (0 < IZR d)%R) by (apply IZR_lt; exact Hd). unfold pow10_le. destruct (Z.leb_spec 0 k) as [L|L].
  - rewrite bpow10_nonneg by exact L. rewrite Z.leb_le. split; intros H.
    + apply Rmult_le_reg_r with (IZR d); [exact HD|]. replace (IZR n / IZR d * IZR d)%R with (IZR n) by (field; lra). rewrite <- mult_IZR. apply IZR_le. exact H.
    + apply le_IZR. rewrite mult_IZR. apply Rmult_le_compat_r with (r := IZR d) in H; [|lra]. replace (IZR n / IZR d * IZR d)%R with (IZR n) in H by (field; lra). exact H.
  - rewrite bpow10_neg by exact L. pose proof (pow10_pos (- k) ltac:(lia)) as P. rewrite Z.leb_le. split; intros H.
    + apply Rmult_le_reg_r with (IZR d * IZR (10 ^ - k))%R; [apply Rmult_lt_0_compat; assumption|].
      replace (/ IZR (10 ^ - k) * (IZR d * IZR (10 ^ - k)))%R with (IZR d) by (field; lra).
      replace (IZR n / IZR d * (IZR d * IZR (10 ^ - k)))%R with (IZR n * IZR (10 ^ - k))%R by (field; lra). rewrite <- mult_IZR. apply IZR_le. exact H.
    + apply le_IZR. rewrite mult_IZR. apply Rmult_le_compat_r with (r := (IZR d * IZR (10 ^ - k))%R) in H; [|left; apply Rmult_lt_0_compat; assumption].
      replace (/ IZR (10 ^ - k) * (IZR d * IZR (10 ^ - k)))%R with (IZR d) in H by (field; lra).
      replace (IZR n / IZR d * (IZR d * IZR (10 ^ - k)))%R with (IZR n * IZR (10 ^ - k))%R in H by (field; lra). exact H.
Qed.
Lemma find_exp_spec f : forall k n d x, 0 < d -> (bpow r10 x <= IZR n / IZR d < bpow r10 (x + 1))%R -> x <= k < x + Z.of_nat f ->
  find_exp f k n d = x.
Proof.
  induction f as [|f IH]; intros k n d x Hd Hx Hk; [lia|]. cbn [find_exp]. destruct (pow10_le k n d) eqn:E.
  - apply pow10_le_spec in E; [|exact Hd]. assert (bpow r10 k < bpow r10 (x + 1))%R as H by lra. apply lt_bpow in H. lia.
  - assert (k <> x).
    { intros ->. destruct Hx as [Hx _]. apply pow10_le_spec in Hx; [|exact Hd]. congruence. }
    apply IH; [exact Hd|exact Hx|lia].
Qed.
Lemma round_scaled_near k n d m : 0 < d -> (Rabs (IZR n / IZR d * bpow r10 k - IZR m) < / 2)%R -> round_scaled k n d = m.
Proof.
  intros Hd H. assert (HD : (0 < IZR d)%R) by (apply IZR_lt; exact Hd). unfold round_scaled. destruct (Z.leb_spec 0 k) as [L|L].
  - rewrite bpow10_nonneg in H by exact L. apply round_ratio_near; [exact Hd|]. apply lt_IZR. rewrite mult_IZR, abs_IZR, minus_IZR, !mult_IZR.
    replace (IZR n * IZR (10 ^ k) - IZR m * IZR d)%R with ((IZR n / IZR d * IZR (10 ^ k) - IZR m) * IZR d)%R by (field; lra).
    rewrite Rabs_mult, (Rabs_pos_eq (IZR d)) by lra. apply Rmult_lt_compat_r with (r := IZR d) in H; [|exact HD]. lra.
  - rewrite bpow10_neg in H by exact L. pose proof (pow10_pos (- k) ltac:(lia)) as P.
    assert (DP : (0 < IZR d * IZR (10 ^ - k))%R) by (apply Rmult_lt_0_compat; assumption).
    apply round_ratio_near; [apply lt_IZR; rewrite mult_IZR; exact DP|]. apply lt_IZR. rewrite mult_IZR, abs_IZR, minus_IZR, !mult_IZR.
    replace (IZR n - IZR m * (IZR d * IZR (10 ^ - k)))%R with ((IZR n / IZR d * / IZR (10 ^ - k) - IZR m) * (IZR d * IZR (10 ^ - k)))%R by (field; lra).
    rewrite Rabs_mult, (Rabs_pos_eq (IZR d * IZR (10 ^ - k))) by lra. apply Rmult_lt_compat_r with (r := (IZR d * IZR (10 ^ - k))%R) in H; [|exact DP]. lra.
Qed.
Lemma sci_digits_near n d m x : 0 < d -> 10 ^ 9 <= m < 10 ^ 10 -> -300 <= x <= 300 ->
  (Rabs (IZR n / IZR d * bpow r10 (9 - x) - IZR m) <= / 100)%R -> sci_digits 10 n d = (m, x).
Proof.
  intros Hd Hm Hx H. set (v := (IZR n / IZR d)%R) in *.
  assert (Bp : (0 < bpow r10 (9 - x))%R) by apply bpow_gt_0.
  assert (M1 : (1000000000 <= IZR m)%R) by (apply IZR_le; lia). assert (M2 : (IZR m <= 9999999999)%R) by (apply IZR_le; lia).
  apply Rabs_le_inv in H.
  assert (S0 : (bpow r10 x * bpow r10 (9 - x) = 1000000000)%R).
  { rewrite <- bpow_plus. replace (x + (9 - x)) with 9 by lia. rewrite bpow10_nonneg by lia. reflexivity. }
  assert (S1 : (bpow r10 (x + 1) * bpow r10 (9 - x) = 10000000000)%R).
  { rewrite <- bpow_plus. replace (x + 1 + (9 - x)) with 10 by lia. rewrite bpow10_nonneg by lia. reflexivity. }
  assert (S9 : (bpow r10 (x - 1) * bpow r10 (9 - x) = 100000000)%R).
  { rewrite <- bpow_plus. replace (x - 1 + (9 - x)) with 8 by lia. rewrite bpow10_nonneg by lia. reflexivity. }
  unfold sci_digits. destruct (Rle_lt_dec (bpow r10 x) v) as [L|L].
  - assert (E : find_exp 633 308 n d = x).
    { apply find_exp_spec; [exact Hd| |lia]. fold v. split; [exact L|]. apply Rmult_lt_reg_r with (bpow r10 (9 - x)); [exact Bp|]. lra. }
    rewrite E. cbv zeta. assert (R : round_scaled (10 - 1 - x) n d = m).
    { apply round_scaled_near; [exact Hd|]. replace (10 - 1 - x) with (9 - x) by lia. fold v. apply Rabs_lt. lra. }
    rewrite R. replace (m =? 10 ^ 10) with false by (symmetry; apply Z.eqb_neq; lia). reflexivity.
  - apply Rmult_lt_compat_r with (r := bpow r10 (9 - x)) in L; [|exact Bp]. rewrite S0 in L.
    assert (EM : m = 10 ^ 9).
    { apply Z.le_antisymm; [|lia]. assert (m < 10 ^ 9 + 1); [|lia]. apply lt_IZR. change (IZR (10 ^ 9 + 1)) with 1000000001%R. lra. }
    assert (E : find_exp 633 308 n d = x - 1).
    { apply find_exp_spec; [exact Hd| |lia]. fold v. replace (x - 1 + 1) with x by lia. split; apply Rmult_le_reg_r with (bpow r10 (9 - x)) || apply Rmult_lt_reg_r with (bpow r10 (9 - x)); lra. }
    rewrite E. cbv zeta. assert (R : round_scaled (10 - 1 - (x - 1)) n d = 10 ^ 10).
    { apply round_scaled_near; [exact Hd|]. replace (10 - 1 - (x - 1)) with ((9 - x) + 1) by lia. fold v. rewrite bpow_plus, <- Rmult_assoc.
      rewrite (bpow10_nonneg 1) by lia. change (IZR (10 ^ 1)) with 10%R. change (IZR (10 ^ 10)) with 10000000000%R. rewrite EM in H. change (IZR (10 ^ 9)) with 1000000000%R in H. apply Rabs_lt. lra. }
    rewrite R. rewrite Z.eqb_refl. rewrite EM. f_equal. lia.
Qed.

(* ---- zeros at the end ---- *)
Fixpoint zeros (j : nat) : string := match j with O => EmptyString | S k => String "0" (zeros k) end.
Lemma strip_zeros_app f : exists j, f = (strip_zeros f ++ zeros j)%string.
Proof.
  induction f as [|c r [j IH]]; [exists 0%nat; reflexivity|]. cbn [strip_zeros]. destruct (strip_zeros r) as [|c' r'] eqn:E.
  - destruct (Ascii.eqb_spec c "0") as [-> |N].
    + exists (S j). cbn [zeros String.append] in *. rewrite IH at 1. reflexivity.
    + exists j. cbn [String.append] in *. rewrite IH at 1. reflexivity.
  - exists j. cbn [String.append] in *. rewrite IH at 1. reflexivity.
Qed.
Lemma zeros_length j : String.length (zeros j) = j.
Proof. induction j; cbn; congruence. Qed.
Lemma digits_zeros j : forall a, digits_from a (zeros j) = Some (a * 10 ^ Z.of_nat j).
Proof.
  induction j as [|j IH]; intros a; cbn [zeros digits_from].
  - f_equal. change (10 ^ Z.of_nat 0) with 1. lia.
  - change (digit "0") with (Some 0). cbv beta iota. rewrite IH. f_equal. replace (Z.of_nat (S j)) with (Z.of_nat j + 1) by lia. rewrite Z.pow_add_r by lia. change (10 ^ 1) with 10. lia.
Qed.
Lemma trimmed_mantissa k s n : 0 <= n -> exists n' k', mantissa (sign_text s ++ print_trimmed k n) s n' k' /\
  0 <= k' <= Z.of_nat k /\ n = n' * 10 ^ (Z.of_nat k - k').
Proof.
  intros Hn. assert (P : 0 < 10 ^ Z.of_nat k) by (apply Z.pow_pos_nonneg; lia).
  assert (Hq : 0 <= n / 10 ^ Z.of_nat k) by (apply Z.div_pos; lia).
  assert (Hr : 0 <= n mod 10 ^ Z.of_nat k < 10 ^ Z.of_nat k) by (apply Z.mod_pos_bound; lia).
  assert (S : sign_of (sign_text s) s) by (destruct s; constructor).
  unfold print_trimmed, with_fraction. set (i := print_nonneg (n / 10 ^ Z.of_nat k)). set (f := print_fixed k (n mod 10 ^ Z.of_nat k)).
  assert (NI : number i (n / 10 ^ Z.of_nat k)) by (apply print_number; exact Hq).
  assert (NF : digits_from 0 (i ++ f) = Some n).
  { rewrite digits_from_app. destruct NI as [_ ->]. unfold f. rewrite print_fixed_number by exact Hr. f_equal. rewrite (Z.mul_comm _ (10 ^ Z.of_nat k)). symmetry. apply Z.div_mod. lia. }
  assert (NE : i <> ""%string) by (destruct NI; assumption).
  destruct (strip_zeros_app f) as [j Ej].
  assert (Lf : (String.length (strip_zeros f) + j = k)%nat).
  { pose proof (print_fixed_length k (n mod 10 ^ Z.of_nat k)) as L. fold f in L. rewrite Ej, sapp_length, zeros_length in L. exact L. }
  rewrite Ej, <- sapp_assoc, digits_from_app in NF. destruct (digits_from 0 (i ++ strip_zeros f)) as [n'|] eqn:D; [|discriminate].
  rewrite digits_zeros in NF. injection NF as NF.
  destruct (strip_zeros f) as [|c r] eqn:Es.
  - exists n', 0. rewrite sapp_nil_r in D. cbn [String.length] in Lf. split; [|split; [lia|]].
    + apply (mantissa_int "" (sign_text s) s i n' I S). split; assumption.
    + rewrite Z.sub_0_r. replace k with j by lia. lia.
  - exists n', (Z.of_nat (String.length (String c r))). split; [|split; [lia|]].
    + apply (mantissa_frac "" (sign_text s) s i (String c r) n' I S). split; [|exact D]. destruct i; [congruence|discriminate].
    + replace (Z.of_nat k - Z.of_nat (String.length (String c r))) with (Z.of_nat j) by lia. lia.
Qed.
Lemma trimmed_decimal k s n b e : 0 <= n -> exponent b e ->
  decimal ((sign_text s ++ print_trimmed k n) ++ b) (IZR (if s then - n else n) * powerRZ 10 (e - Z.of_nat k)).
Proof.
  intros Hn Hb. destruct (trimmed_mantissa k s n Hn) as (n' & k' & M & K & E).
  pose proof (decimal_intro _ _ _ _ _ _ M Hb) as D.
  replace (IZR (if s then - n else n) * powerRZ 10 (e - Z.of_nat k))%R with (IZR (if s then - n' else n') * powerRZ 10 (e - k'))%R; [exact D|].
  replace (e - k') with ((Z.of_nat k - k') + (e - Z.of_nat k)) by lia. rewrite powerRZ_add by lra. rewrite <- Rmult_assoc. f_equal.
  rewrite powerRZ_pos by lia. rewrite <- mult_IZR. f_equal. rewrite E. destruct s; lia.
Qed.

(* ---- the text of a coordinate ---- *)
Definition clean_char (c : ascii) : bool := negb (Ascii.eqb c " " || Ascii.eqb c "," || Ascii.eqb c ")" || Ascii.eqb c zero).
Fixpoint clean (s : string) : bool := match s with EmptyString => true | String c r => clean_char c && clean r end.
Lemma clean_app a b : clean (a ++ b) = clean a && clean b.
Proof. induction a; cbn; [reflexivity|]. rewrite IHa. apply andb_assoc. Qed.
Lemma digit_clean c : is_digit c = true -> clean_char c = true.
Proof.
  intros D. unfold clean_char. destruct (Ascii.eqb_spec c " ") as [-> |]; [discriminate|]. destruct (Ascii.eqb_spec c ",") as [-> |]; [discriminate|].
  destruct (Ascii.eqb_spec c ")") as [-> |]; [discriminate|]. destruct (Ascii.eqb_spec c zero) as [-> |]; [discriminate|]. reflexivity.
Qed.
Lemma clean_digits s : forall a n, digits_from a s = Some n -> clean s = true.
Proof.
  induction s as [|c r IH]; intros a n H; [reflexivity|]. cbn [digits_from] in H. rewrite digit_eq in H. cbn [clean].
  destruct (is_digit c) eqn:D; [|discriminate]. rewrite (digit_clean c D). exact (IH _ _ H).
Qed.
Lemma clean_sign s : clean (sign_text s) = true.
Proof. destruct s; reflexivity. Qed.
Lemma clean_trimmed k n : 0 <= n -> clean (print_trimmed k n) = true.
Proof.
  intros Hn. assert (P : 0 < 10 ^ Z.of_nat k) by (apply Z.pow_pos_nonneg; lia).
  assert (Hq : 0 <= n / 10 ^ Z.of_nat k) by (apply Z.div_pos; lia).
  assert (Hr : 0 <= n mod 10 ^ Z.of_nat k < 10 ^ Z.of_nat k) by (apply Z.mod_pos_bound; lia).
  unfold print_trimmed, with_fraction. assert (CI : clean (print_nonneg (n / 10 ^ Z.of_nat k)) = true).
  { destruct (print_number _ Hq) as [_ N]. exact (clean_digits _ _ _ N). }
  pose proof (clean_digits _ _ _ (print_fixed_number k _ 0 Hr)) as CF. destruct (strip_zeros_app (print_fixed k (n mod 10 ^ Z.of_nat k))) as [j Ej].
  rewrite Ej, clean_app in CF. apply andb_true_iff in CF. destruct CF as [CF _].
  destruct (strip_zeros _) as [|c r]; [exact CI|]. rewrite clean_app, CI. exact CF.
Qed.
Lemma exponent_text x : -100 < x < 100 -> exponent ("e" ++ print_exponent x) x /\ clean ("e" ++ print_exponent x) = true.
Proof.
  intros Hx. unfold print_exponent. replace (Z.abs x <? 100) with true by (symmetry; apply Z.ltb_lt; lia).
  destruct (print2_number (Z.abs x)) as [_ N]; [lia|]. split.
  - destruct (Z.ltb_spec x 0).
    + pose proof (exponent_some "e" "-" true _ _ (or_introl eq_refl) sign_minus N) as E. assert (Q : - Z.abs x = x) by lia. rewrite Q in E. exact E.
    + pose proof (exponent_some "e" "+" false _ _ (or_introl eq_refl) sign_plus N) as E. assert (Q : Z.abs x = x) by lia. rewrite Q in E |- *. exact E.
  - destruct N as [_ N]. pose proof (clean_digits _ _ _ N) as C. destruct (x <? 0); exact C.
Qed.
Lemma digits_of n : 0 < n < 10 ^ 10 -> exists L, 1 <= L <= 10 /\ 10 ^ (L - 1) <= n < 10 ^ L.
Proof.
  intros H. assert (n < 10 \/ 10 <= n < 100 \/ 100 <= n < 1000 \/ 1000 <= n < 10000 \/ 10000 <= n < 100000 \/ 100000 <= n < 1000000 \/
    1000000 <= n < 10000000 \/ 10000000 <= n < 100000000 \/ 100000000 <= n < 1000000000 \/ 1000000000 <= n) as D by lia.
  change (10 ^ 10) with 10000000000 in H.
  destruct D as [D|[D|[D|[D|[D|[D|[D|[D|[D|D]]]]]]]]];
    [exists 1|exists 2|exists 3|exists 4|exists 5|exists 6|exists 7|exists 8|exists 9|exists 10]; (split; [lia|]);
    match goal with |- 10 ^ ?a <= n < 10 ^ ?b => let u := eval vm_compute in (10 ^ a) in let v := eval vm_compute in (10 ^ b) in change (u <= n < v) end; lia.
Qed.
Lemma coord_sci x n d : in_i32 x -> x <> 0 -> 0 < d -> (IZR n / IZR d = Rabs (val (fix_to_double x)))%R ->
  exists L, 1 <= L <= 10 /\ sci_digits 10 n d = (Z.abs x * 10 ^ (10 - L), L - 8) /\ 10 ^ (L - 1) <= Z.abs x < 10 ^ L.
Proof.
  intros Hx N Hd E. assert (Ha : (0 < Z.abs x <= 2147483648)%Z) by (unfold in_i32, int32_min, int32_max in Hx; lia).
  destruct (digits_of (Z.abs x)) as (L & HL & B); [lia|]. exists L. split; [exact HL|split; [|exact B]].
  assert (P : 0 < 10 ^ (10 - L)) by (apply Z.pow_pos_nonneg; lia).
  assert (P9 : 10 ^ 9 = 10 ^ (L - 1) * 10 ^ (10 - L)) by (rewrite <- Z.pow_add_r by lia; f_equal; lia).
  assert (P10 : 10 ^ 10 = 10 ^ L * 10 ^ (10 - L)) by (rewrite <- Z.pow_add_r by lia; f_equal; lia).
  assert (HM : 10 ^ 9 <= Z.abs x * 10 ^ (10 - L) < 10 ^ 10) by (rewrite P9, P10; split; [apply Z.mul_le_mono_nonneg_r; lia|apply Z.mul_lt_mono_pos_r; lia]).
  apply sci_digits_near; [exact Hd|exact HM|lia|]. rewrite E.
  destruct (fix_to_double_err x) as (e & h & H1 & H2 & H3 & _); [lia|].
  assert (D : (Rabs (Rabs (val (fix_to_double x)) - IZR (Z.abs x) / 10000000) <= IZR (Z.abs x) / 10000000 * u64 + eta64)%R).
  { replace (IZR (Z.abs x) / 10000000)%R with (Rabs (IZR x / 10000000)).
    - eapply Rle_trans; [apply Rabs_triang_inv2|]. rewrite H3. replace (IZR x / 10000000 * (1 + e) + h - IZR x / 10000000)%R with (IZR x / 10000000 * e + h)%R by ring.
      eapply Rle_trans; [apply Rabs_triang|]. rewrite Rabs_mult. apply Rplus_le_compat; [|exact H2]. apply Rmult_le_compat_l; [apply Rabs_pos|exact H1].
    - unfold Rdiv. rewrite Rabs_mult, abs_IZR. f_equal. apply Rabs_pos_eq. lra. }
  replace (9 - (L - 8)) with (7 + (10 - L)) by lia. rewrite bpow_plus, (bpow10_nonneg 7), (bpow10_nonneg (10 - L)) by lia. change (IZR (10 ^ 7)) with 10000000%R.
  rewrite mult_IZR. set (T := IZR (10 ^ (10 - L))) in *. assert (HT : (0 < T)%R) by (apply IZR_lt; exact P).
  replace (Rabs (val (fix_to_double x)) * (10000000 * T) - IZR (Z.abs x) * T)%R with ((Rabs (val (fix_to_double x)) - IZR (Z.abs x) / 10000000) * (10000000 * T))%R by field.
  rewrite Rabs_mult, (Rabs_pos_eq (10000000 * T)) by lra.
  eapply Rle_trans; [apply Rmult_le_compat_r; [lra|exact D]|].
  replace ((IZR (Z.abs x) / 10000000 * u64 + eta64) * (10000000 * T))%R with ((IZR (Z.abs x) * T) * u64 + eta64 * 10000000 * T)%R by field.
  assert (HM' : (IZR (Z.abs x) * T <= 10000000000)%R). { unfold T. rewrite <- mult_IZR. apply IZR_le. lia. }
  assert (HT' : (T <= 10000000000)%R). { unfold T. apply IZR_le. change 10000000000 with (10 ^ 10). apply Z.pow_le_mono_r; lia. }
  pose proof u64_small as Us. pose proof eta64_small as Es.
  assert (IZR (Z.abs x) * T * u64 <= 10000000000 * u64)%R by (apply Rmult_le_compat_r; lra).
  assert (eta64 * 10000000 * T <= eta64 * 10000000 * 10000000000)%R by (apply Rmult_le_compat_l; lra). lra.
Qed.
Lemma powerRZ10_7 : powerRZ 10 (-7) = precision.
Proof. unfold precision. exact (powerRZ_neg 7 ltac:(lia)). Qed.
Lemma coord_value s x M e k : s = (x <? 0) -> forall j, 0 <= j -> M = Z.abs x * 10 ^ j -> e - k = - 7 - j ->
  (IZR (if s then - M else M) * powerRZ 10 (e - k))%R = (IZR x * precision)%R.
Proof.
  intros -> j Hj -> ->. replace (- 7 - j) with (- j + -7) by lia. rewrite powerRZ_add by lra. rewrite powerRZ10_7, <- Rmult_assoc. f_equal.
  rewrite powerRZ_neg by exact Hj. pose proof (pow10_pos j Hj) as P. replace (if x <? 0 then - (Z.abs x * 10 ^ j) else Z.abs x * 10 ^ j) with (x * 10 ^ j) by (destruct (Z.ltb_spec x 0); lia).
  rewrite mult_IZR. field. lra.
Qed.
Lemma stream_coord x : in_i32 x -> coordinate_exact (stream_double (fix_to_double x)) x /\ clean (stream_double (fix_to_double x)) = true.
Proof.
  intros Hx. destruct (Z.eq_dec x 0) as [->|N].
  - split; [|vm_compute; reflexivity]. change (stream_double (fix_to_double 0)) with "0"%string. unfold coordinate_exact.
    replace (IZR 0 * precision)%R with (IZR (if false then - 0 else 0)) by (rewrite Rmult_0_l; reflexivity).
    apply (decimal_int "" "" false "0" 0); [exact I|constructor|split; [discriminate|reflexivity]].
  - destruct (fix_to_double_near x Hx) as [F H]. assert (N1 : (1 <= Rabs (IZR x))%R). { rewrite <- abs_IZR. apply IZR_le. lia. }
    pose proof (coord_sci x) as CS. destruct (fix_to_double x) as [s|s|s pl pe|s m e B] eqn:ED; try discriminate F.
    + exfalso. cbn [B2R] in H. revert H. replace (0 * 10000000 - IZR x)%R with (- IZR x)%R by ring. rewrite Rabs_Ropp. lra.
    + assert (P : (0 < F2R (Float radix2 (Zpos m) e))%R) by (apply F2R_gt_0; reflexivity).
      assert (SX : s = (x <? 0)).
      { cbn [B2R] in H. destruct s; cbn [cond_Zopp] in H; symmetry.
        - rewrite F2R_Zopp in H. apply Z.ltb_lt. apply lt_IZR. revert H. unfold Rabs. destruct (Rcase_abs _); intros; revert N1; unfold Rabs; destruct (Rcase_abs (IZR x)); intros; lra.
        - apply Z.ltb_ge. apply le_IZR. revert H. unfold Rabs. destruct (Rcase_abs _); intros; revert N1; unfold Rabs; destruct (Rcase_abs (IZR x)); intros; lra. }
      unfold stream_double. cbn [printf_g]. set (n := if e <? 0 then Zpos m else Zpos m * 2 ^ e). set (d := if e <? 0 then 2 ^ (- e) else 1).
      assert (Hd : 0 < d) by (unfold d; destruct (Z.ltb_spec e 0); [apply Z.pow_pos_nonneg; lia|lia]).
      assert (EV : (IZR n / IZR d = Rabs (val (Binary.B754_finite 53 1024 s m e B)))%R).
      { cbn [B2R]. rewrite <- F2R_Zabs. replace (Z.abs (cond_Zopp s (Zpos m))) with (Zpos m) by (destruct s; reflexivity).
        unfold n, d. destruct (Z.ltb_spec e 0).
        - unfold F2R. cbn [Fnum Fexp]. rewrite <- (Z.opp_involutive e) at 2. rewrite bpow_opp. unfold Rdiv. f_equal. f_equal. rewrite <- IZR_Zpower by lia. reflexivity.
        - unfold F2R. cbn [Fnum Fexp]. rewrite <- IZR_Zpower by lia. rewrite <- mult_IZR. unfold Rdiv. rewrite Rinv_1, Rmult_1_r. reflexivity. }
      destruct (CS n d Hx N Hd EV) as (L & HL & EQ & _). change (Z.of_nat 10) with 10. rewrite EQ.
      assert (HM : 0 <= Z.abs x * 10 ^ (10 - L)) by (apply Z.mul_nonneg_nonneg; [lia|apply Z.pow_nonneg; lia]).
      destruct ((-4 <=? L - 8) && (L - 8 <? 10)) eqn:C.
      * pose proof (trimmed_decimal (Z.to_nat (10 - 1 - (L - 8))) s _ "" 0 HM exponent_none) as D. rewrite sapp_nil_r in D. split.
        -- unfold coordinate_exact. erewrite <- (coord_value s x _ 0 (Z.of_nat (Z.to_nat (10 - 1 - (L - 8))))); [exact D|exact SX| |reflexivity|]; lia.
        -- rewrite clean_app, clean_sign, clean_trimmed by exact HM. reflexivity.
      * destruct (exponent_text (L - 8)) as [EX CX]; [lia|].
        pose proof (trimmed_decimal (10 - 1) s _ _ _ HM EX) as D. rewrite sapp_assoc in D. split.
        -- unfold coordinate_exact. erewrite <- (coord_value s x _ (L - 8) (Z.of_nat (10 - 1))); [exact D|exact SX| |reflexivity|]; lia.
        -- rewrite !clean_app. rewrite clean_app in CX. rewrite clean_sign, clean_trimmed by exact HM. exact CX.
Qed.

(* ---- lists ---- *)
Notation sd := stream_double.
Lemma lonlat_comma q r : lonlat_list sd false (q :: r) = ("," ++ lonlat_list sd true (q :: r))%string.
Proof. reflexivity. Qed.
Lemma list_coords ps : Forall stored_position ps -> coords_text (lonlat_list sd true ps) ps.
Proof.
  induction ps as [|p r IH]; intros F; [constructor|]. apply Forall_cons_iff in F. destruct F as [[X Y] F].
  destruct r as [|q r'].
  - cbn [lonlat_list String.append]. rewrite !sapp_nil_r. apply coords_last; apply stream_coord; assumption.
  - change (lonlat_list sd true (p :: q :: r')) with (sd (pos_lon p) ++ " " ++ sd (pos_lat p) ++ lonlat_list sd false (q :: r'))%string.
    rewrite lonlat_comma. apply coords_more; [apply stream_coord; assumption|apply stream_coord; assumption|apply IH; exact F].
Qed.

Lemma cut_clean (c : ascii) a b : clean a = true -> clean_char c = false -> cut c (a ++ String c b) = (a, Some b).
Proof.
  intros H C. induction a as [|d a IH]; cbn [cut String.append clean] in *; [rewrite Ascii.eqb_refl; reflexivity|].
  apply andb_true_iff in H. destruct H as [H1 H2]. destruct (Ascii.eqb_spec d c) as [-> |]; [congruence|]. rewrite (IH H2). reflexivity.
Qed.
Lemma read_coord_text x : in_i32 x -> read_number (sd (fix_to_double x)) = Some x.
Proof.
  intros Hx. unfold read_number. destruct (stream_coord x Hx) as [E _]. unfold coordinate_exact, precision in E.
  rewrite (coordinate_text_exact _ x E Hx). reflexivity.
Qed.
Definition xy_text (p : position) : string := (sd (pos_lon p) ++ " " ++ sd (pos_lat p))%string.
Lemma read_xy_text p : stored_position p -> read_xy (xy_text p) = Some p.
Proof.
  intros [X Y]. unfold read_xy, xy_text. change (" " ++ sd (pos_lat p))%string with (String " " (sd (pos_lat p))).
  rewrite cut_clean; [|apply (stream_coord _ X)|reflexivity]. unfold pos_lon, pos_lat. rewrite !read_coord_text by assumption. destruct p; reflexivity.
Qed.
(** no character c in the string *)
Fixpoint free (c : ascii) (s : string) : bool := match s with EmptyString => true | String d r => negb (Ascii.eqb d c) && free c r end.
Lemma free_app c a b : free c (a ++ b) = free c a && free c b.
Proof. induction a; cbn; [reflexivity|]. rewrite IHa. apply andb_assoc. Qed.
Lemma clean_free c s : clean_char c = false -> clean s = true -> free c s = true.
Proof.
  intros C. induction s as [|d s IH]; intros H; [reflexivity|]. cbn [clean free] in *. apply andb_true_iff in H. destruct H as [H1 H2].
  destruct (Ascii.eqb_spec d c) as [-> |]; [congruence|]. exact (IH H2).
Qed.
Lemma cut_free c a : free c a = true -> cut c a = (a, None).
Proof. induction a as [|d a IH]; cbn [cut free]; intros H; [reflexivity|]. apply andb_true_iff in H. destruct H as [H1 H2]. destruct (Ascii.eqb d c); [discriminate|]. rewrite (IH H2). reflexivity. Qed.
Lemma cut_free_app c a b : free c a = true -> cut c (a ++ String c b) = (a, Some b).
Proof. induction a as [|d a IH]; cbn [cut free String.append]; intros H; [rewrite Ascii.eqb_refl; reflexivity|]. apply andb_true_iff in H. destruct H as [H1 H2]. destruct (Ascii.eqb d c); [discriminate|]. rewrite (IH H2). reflexivity. Qed.
Lemma xy_free c p : stored_position p -> clean_char c = false -> Ascii.eqb " " c = false -> free c (xy_text p) = true.
Proof.
  intros [X Y] C N. unfold xy_text, pos_lon, pos_lat. rewrite free_app. cbn [String.append free]. rewrite N.
  rewrite (clean_free c _ C (proj2 (stream_coord _ X))), (clean_free c _ C (proj2 (stream_coord _ Y))). reflexivity.
Qed.
Lemma list_one p : lonlat_list sd true [p] = xy_text p.
Proof. cbn [lonlat_list]. rewrite sapp_nil_r. reflexivity. Qed.
Lemma list_more p q r : lonlat_list sd true (p :: q :: r) = (xy_text p ++ String "," (lonlat_list sd true (q :: r)))%string.
Proof.
  change (lonlat_list sd true (p :: q :: r)) with (sd (pos_lon p) ++ " " ++ sd (pos_lat p) ++ lonlat_list sd false (q :: r))%string.
  rewrite lonlat_comma. unfold xy_text. rewrite !sapp_assoc. reflexivity.
Qed.
Lemma list_free ps : Forall stored_position ps -> free ")" (lonlat_list sd true ps) = true.
Proof.
  induction ps as [|p r IH]; intros F; [reflexivity|]. apply Forall_cons_iff in F. destruct F as [Hp F]. destruct r as [|q r'].
  - rewrite list_one. apply xy_free; [exact Hp|reflexivity|reflexivity].
  - rewrite list_more, free_app. rewrite (xy_free ")" p Hp eq_refl eq_refl). exact (IH F).
Qed.
Lemma read_xys_text ps : forall p fuel, Forall stored_position (p :: ps) -> (List.length ps < fuel)%nat -> read_xys fuel (lonlat_list sd true (p :: ps)) = Some (p :: ps).
Proof.
  induction ps as [|q r IH]; intros p fuel F L; apply Forall_cons_iff in F; destruct F as [Hp F]; (destruct fuel as [|fuel]; [cbn in L; lia|]); cbn [read_xys].
  - rewrite list_one, (cut_free "," _ (xy_free "," p Hp eq_refl eq_refl)), (read_xy_text p Hp). reflexivity.
  - rewrite list_more, (cut_free_app "," _ _ (xy_free "," p Hp eq_refl eq_refl)), (read_xy_text p Hp), (IH q fuel F); [reflexivity|]. cbn in L. lia.
Qed.
Lemma list_length ps : (List.length ps <= String.length (lonlat_list sd true ps))%nat.
Proof.
  induction ps as [|p r IH]; [cbn; lia|]. destruct r as [|q r'].
  - rewrite list_one. unfold xy_text. rewrite sapp_length. cbn. lia.
  - rewrite list_more, sapp_length. cbn [String.length List.length] in *. lia.
Qed.
Lemma read_list_text ps : Forall stored_position ps -> read_list (lonlat_list sd true ps) = Some ps.
Proof.
  intros F. destruct ps as [|p r]; [reflexivity|]. unfold read_list. pose proof (list_length (p :: r)) as L. destruct (lonlat_list sd true (p :: r)) eqn:E.
  - cbn in L. lia.
  - rewrite <- E in *. apply read_xys_text; [exact F|]. cbn [List.length] in L. lia.
Qed.
Lemma read_srid s t w : read_shape t = Some w -> drop_prefix "SRID=4326;" t = None -> read_wkt (wkt_srid s ++ t) = Some (s, w).
Proof.
  intros R D. unfold read_wkt, wkt_srid. destruct s.
  - replace (drop_prefix "SRID=4326;" ("SRID=4326;" ++ t)) with (Some t) by reflexivity. rewrite R. reflexivity.
  - cbn [String.append]. rewrite D, R. reflexivity.
Qed.
Lemma point_read s p : stored_position p -> read_wkt (point_text s p) = Some (s, WPoint p).
Proof.
  intros H. unfold point_text, point_wkt. apply read_srid; [|reflexivity].
  replace (sd (pos_lon p) ++ " " ++ sd (pos_lat p) ++ ")")%string with (xy_text p ++ ")")%string by (unfold xy_text; rewrite !sapp_assoc; reflexivity).
  unfold read_shape. replace (drop_prefix "POINT(" ("POINT(" ++ xy_text p ++ ")")) with (Some (xy_text p ++ ")")%string) by reflexivity.
  cbv beta iota. rewrite (cut_free_app ")" _ "" (xy_free ")" p H eq_refl eq_refl)). rewrite (read_xy_text p H). reflexivity.
Qed.
Lemma line_read s g : Forall stored_position (positions (line_order g)) -> read_wkt (line_text s g) = Some (s, WLine (positions (line_order g))).
Proof.
  intros H. unfold line_text, line_wkt. apply read_srid; [|reflexivity]. set (t := lonlat_list sd true (positions (line_order g))).
  unfold read_shape. replace (drop_prefix "POINT(" ("LINESTRING(" ++ t ++ ")")) with (@None string) by reflexivity.
  replace (drop_prefix "LINESTRING(" ("LINESTRING(" ++ t ++ ")")) with (Some (t ++ ")")%string) by reflexivity.
  cbv beta iota. rewrite (cut_free_app ")" t "" (list_free _ H)). unfold t. rewrite (read_list_text _ H). reflexivity.
Qed.
Lemma poly_read s g : Forall stored_position (positions (fw_nodes g)) -> read_wkt (poly_text s g) = Some (s, WPolygon (positions (fw_nodes g))).
Proof.
  intros H. unfold poly_text, poly_wkt. apply read_srid; [|reflexivity]. set (t := lonlat_list sd true (positions (fw_nodes g))).
  unfold read_shape. replace (drop_prefix "POINT(" ("POLYGON((" ++ t ++ "))")) with (@None string) by reflexivity.
  replace (drop_prefix "LINESTRING(" ("POLYGON((" ++ t ++ "))")) with (@None string) by reflexivity.
  replace (drop_prefix "POLYGON((" ("POLYGON((" ++ t ++ "))")) with (Some (t ++ "))")%string) by reflexivity.
  cbv beta iota. change "))"%string with (String ")" ")"). rewrite (cut_free_app ")" t ")" (list_free _ H)). unfold t. rewrite (read_list_text _ H). reflexivity.
Qed.

(* ---- theorems ---- *)
Lemma wkt_number x : in_i32 x -> coordinate_exact (stream_double (fix_to_double x)) x.
Proof. intros H. apply stream_coord. exact H. Qed.
Lemma wkt_exact :
  (forall s p, stored_position p -> exists a b, point_text s p = (wkt_srid s ++ "POINT(" ++ a ++ " " ++ b ++ ")")%string /\
     coordinate_exact a (px p) /\ coordinate_exact b (py p)) /\
  (forall s g, Forall stored_position (positions (line_order g)) -> exists t, line_text s g = (wkt_srid s ++ "LINESTRING(" ++ t ++ ")")%string /\
     coords_text t (positions (line_order g))) /\
  (forall s g, Forall stored_position (positions (fw_nodes g)) -> exists t, poly_text s g = (wkt_srid s ++ "POLYGON((" ++ t ++ "))")%string /\
     coords_text t (positions (fw_nodes g))).
Proof.
  split; [|split].
  - intros s p [X Y]. do 2 eexists. split; [reflexivity|]. split; apply wkt_number; assumption.
  - intros s g H. eexists. split; [reflexivity|]. apply list_coords. exact H.
  - intros s g H. eexists. split; [reflexivity|]. apply list_coords. exact H.
Qed.
Lemma wkt_read :
  (forall s p, stored_position p -> read_wkt (point_text s p) = Some (s, WPoint p)) /\
  (forall s g, Forall stored_position (positions (line_order g)) -> read_wkt (line_text s g) = Some (s, WLine (positions (line_order g)))) /\
  (forall s g, Forall stored_position (positions (fw_nodes g)) -> read_wkt (poly_text s g) = Some (s, WPolygon (positions (fw_nodes g)))).
Proof. exact (conj point_read (conj line_read poly_read)). Qed.
Lemma wkt_injective s s' g g' : Forall stored_position (positions (line_order g)) -> Forall stored_position (positions (line_order g')) ->
  line_text s g = line_text s' g' -> s = s' /\ positions (line_order g) = positions (line_order g').
Proof. intros H H' E. pose proof (line_read s g H) as R. rewrite E, (line_read s' g' H') in R. injection R as -> ->. split; reflexivity. Qed.
