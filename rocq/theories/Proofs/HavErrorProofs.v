(** How far the distances computed with doubles are from the real ones. *)
From Coq Require Import Reals Lra Psatz Rtrigo Ratan.
From Flocq Require Import Core IEEE754.BinarySingleNaN IEEE754.Binary IEEE754.Bits.
From Verif Require Import Base.Prelude Model.Osm Model.Float Model.Haversine Spec.FloatSpec Spec.HaversineSpec
  Proofs.FloatProofs Proofs.HaversineProofs Proofs.HavFloatProofs Proofs.PiProofs.
Local Open Scope R_scope.

(* ---- real numbers ---- *)
Lemma abs_bounds x a : Rabs x <= a -> - a <= x <= a.
Proof. intros H. now apply Rabs_le_inv. Qed.
Lemma sin_abs x : Rabs (sin x) <= Rabs x.
Proof.
  destruct (Rtotal_order x 0) as [H|[->|H]].
  - rewrite <- (Rabs_Ropp (sin x)), <- sin_neg, <- (Rabs_Ropp x). set (y := - x). assert (Hy : 0 < y) by (unfold y; lra).
    rewrite (Rabs_pos_eq y) by lra. apply Rabs_le. split; [|left; now apply sin_lt_x].
    destruct (Rle_or_lt y 1) as [L|L]; [|pose proof (SIN_bound y); lra]. pose proof PI2_1. pose proof PI_RGT_0.
    assert (0 <= sin y) by (apply sin_ge_0; lra). lra.
  - rewrite sin_0. lra.
  - rewrite (Rabs_pos_eq x) by lra. apply Rabs_le. split; [|left; now apply sin_lt_x].
    destruct (Rle_or_lt x 1) as [L|L]; [|pose proof (SIN_bound x); lra]. pose proof PI2_1. pose proof PI_RGT_0.
    assert (0 <= sin x) by (apply sin_ge_0; lra). lra.
Qed.
Lemma abs_sin_1 x : Rabs (sin x) <= 1.
Proof. apply Rabs_le. pose proof (SIN_bound x). lra. Qed.
Lemma abs_cos_1 x : Rabs (cos x) <= 1.
Proof. apply Rabs_le. pose proof (COS_bound x). lra. Qed.
Lemma sin_lip a b : Rabs (sin a - sin b) <= Rabs (a - b).
Proof.
  rewrite form4, !Rabs_mult, (Rabs_pos_eq 2) by lra. pose proof (abs_cos_1 ((a + b) / 2)). pose proof (sin_abs ((a - b) / 2)) as H2.
  replace (Rabs ((a - b) / 2)) with (Rabs (a - b) / 2) in H2 by (unfold Rdiv; rewrite Rabs_mult, (Rabs_pos_eq (/ 2)) by lra; reflexivity).
  pose proof (Rabs_pos (cos ((a + b) / 2))). pose proof (Rabs_pos (sin ((a - b) / 2))). nra.
Qed.
Lemma cos_lip a b : Rabs (cos a - cos b) <= Rabs (a - b).
Proof.
  rewrite <- !sin_shift. eapply Rle_trans; [apply sin_lip|]. right. rewrite <- Rabs_Ropp. f_equal. ring.
Qed.
Lemma cos_diff a b : Rabs (cos a - cos b) <= 2 * Rabs (sin ((a - b) / 2)).
Proof.
  rewrite form2, !Rabs_mult, (Rabs_left (-2)) by lra. pose proof (abs_sin_1 ((a + b) / 2)).
  pose proof (Rabs_pos (sin ((a + b) / 2))). pose proof (Rabs_pos (sin ((a - b) / 2))). nra.
Qed.
(** x <= 2 sin x up to 60 degrees *)
Lemma sin_ge_half x : 0 <= x <= PI / 3 -> x <= 2 * sin x.
Proof.
  intros H. pose proof PI_RGT_0. destruct (Req_dec x 0) as [->|N]; [rewrite sin_0; lra|].
  assert (D : forall c, 0 <= c <= x -> derivable_pt_lim (fun y => 2 * sin y) c (2 * cos c)).
  { intros c _. apply derivable_pt_lim_scal. apply derivable_pt_lim_sin. }
  destruct (MVT_cor2 (fun y => 2 * sin y) (fun y => 2 * cos y) 0 x) as (c & E & C); [lra|exact D|].
  rewrite sin_0 in E. assert (/ 2 <= cos c).
  { replace (/ 2) with (cos (PI / 3)) by (rewrite cos_PI3; lra). apply cos_decr_1; lra. }
  nra.
Qed.
Lemma sqrt_close x y m : 0 <= x -> 0 <= y -> 0 < m -> Rabs (y - x) <= 2 * m * sqrt x + m * m -> Rabs (sqrt y - sqrt x) <= 3 * m.
Proof.
  intros Hx Hy Hm H. apply abs_bounds in H. pose proof (sqrt_pos x) as Px. pose proof (sqrt_pos y) as Py.
  pose proof (sqrt_sqrt x Hx) as Sx. pose proof (sqrt_sqrt y Hy) as Sy. set (s := sqrt x) in *. set (r := sqrt y) in *.
  apply Rabs_le. split.
  - destruct (Rle_or_lt (s - 3 * m) r) as [L|L]; [lra|]. exfalso. nra.
  - destruct (Rle_or_lt r (s + 3 * m)) as [L|L]; [lra|]. exfalso. nra.
Qed.
(** the arguments of the square root, exact and computed; [t] is the unit of the errors *)
Lemma root_close t A B c1 c2 A' B' d1 d2 h' : 0 < t <= / 1000 ->
  Rabs A <= 1 -> Rabs B <= 1 -> 0 <= c1 <= 1 -> 0 <= c2 <= 1 -> Rabs (c1 - c2) <= 2 * Rabs A ->
  Rabs (A' - A) <= 2.1 * t -> Rabs (B' - B) <= 2.1 * t -> Rabs (d1 - c1) <= 0.8 * t -> Rabs (d2 - c2) <= 0.8 * t ->
  A * A + c1 * c2 * (B * B) <= 1 ->
  Rabs (h' - (A' * A' + d1 * d2 * (B' * B'))) <= 0.6 * t * Rabs (A' * A' + d1 * d2 * (B' * B')) + 10 * (t * t) -> 0 <= h' ->
  Rabs (sqrt h' - sqrt (A * A + c1 * c2 * (B * B))) <= 19.5 * t.
Proof.
  intros Ht HA HB C1 C2 CD EA EB E1 E2 H1 EK P.
  set (h := A * A + c1 * c2 * (B * B)) in *. set (k := A' * A' + d1 * d2 * (B' * B')) in *.
  assert (c12 : 0 <= c1 * c2) by (apply Rmult_le_pos; lra).
  assert (BB : 0 <= B * B) by apply Rle_0_sqr. assert (AA : 0 <= A * A) by apply Rle_0_sqr.
  assert (Hh : 0 <= h) by (unfold h; apply Rplus_le_le_0_compat; [exact AA|now apply Rmult_le_pos]).
  pose proof (sqrt_pos h) as Ps. pose proof (sqrt_sqrt h Hh) as Ss. set (s := sqrt h) in *.
  assert (S1 : s <= 1) by nra.
  set (a := Rabs A) in *. set (b := Rabs B) in *.
  assert (a0 : 0 <= a) by apply Rabs_pos. assert (b0 : 0 <= b) by apply Rabs_pos.
  assert (aa : a * a = A * A) by (unfold a; rewrite <- Rabs_mult; apply Rabs_pos_eq, Rle_0_sqr).
  assert (bb : b * b = B * B) by (unfold b; rewrite <- Rabs_mult; apply Rabs_pos_eq, Rle_0_sqr).
  assert (As : a <= s). { assert (a * a <= s * s) by (rewrite Ss, aa; unfold h; pose proof (Rmult_le_pos _ _ c12 BB); lra). nra. }
  set (m := Rmin c1 c2).
  assert (Hm : 0 <= m /\ m <= c1 /\ m <= c2 /\ c1 + c2 <= 2 * m + 2 * a).
  { apply abs_bounds in CD. unfold m, Rmin. destruct (Rle_dec c1 c2); repeat split; lra. }
  destruct Hm as (m0 & m1 & m2 & m3).
  assert (mm : m * m <= c1 * c2) by (apply Rmult_le_compat; lra).
  assert (mb : m * b <= s).
  { assert (m * b * (m * b) <= s * s).
    { rewrite Ss. replace (m * b * (m * b)) with (m * m * (b * b)) by ring. rewrite bb. unfold h. pose proof (Rmult_le_compat_r (B * B) _ _ BB mm). lra. }
    assert (0 <= m * b) by (now apply Rmult_le_pos). nra. }
  assert (cb : c1 * c2 * b <= s).
  { apply Rle_trans with (m * b); [|exact mb]. apply Rmult_le_compat_r; [exact b0|].
    unfold m, Rmin. destruct (Rle_dec c1 c2); nra. }
  assert (cs : (c1 + c2) * (b * b) <= 4 * s).
  { apply Rle_trans with ((2 * m + 2 * a) * (b * b)); [apply Rmult_le_compat_r; [nra|exact m3]|].
    assert (m * b * b <= s * 1) by (apply Rmult_le_compat; lra || nra). assert (a * (b * b) <= s * 1) by (apply Rmult_le_compat; try lra; nra). lra. }
  set (ea := A' - A) in *. set (eb := B' - B) in *. set (f1 := d1 - c1) in *. set (f2 := d2 - c2) in *.
  assert (T1 : Rabs (A' * A' - A * A) <= 2.1 * t * (2 * s + 2.1 * t)).
  { replace (A' * A' - A * A) with (ea * (2 * A + ea)) by (unfold ea; ring). rewrite Rabs_mult.
    apply Rmult_le_compat; try apply Rabs_pos; [exact EA|]. eapply Rle_trans; [apply Rabs_triang|]. rewrite Rabs_mult, (Rabs_pos_eq 2) by lra. fold a. lra. }
  assert (T2 : Rabs (d1 * d2 - c1 * c2) <= 0.8 * t * (c1 + c2) + 0.64 * (t * t)).
  { replace (d1 * d2 - c1 * c2) with (c1 * f2 + c2 * f1 + f1 * f2) by (unfold f1, f2; ring).
    eapply Rle_trans; [apply Rabs_triang|]. eapply Rle_trans; [apply Rplus_le_compat_r, Rabs_triang|]. rewrite !Rabs_mult, (Rabs_pos_eq c1), (Rabs_pos_eq c2) by lra.
    assert (c1 * Rabs f2 <= c1 * (0.8 * t)) by (apply Rmult_le_compat_l; lra).
    assert (c2 * Rabs f1 <= c2 * (0.8 * t)) by (apply Rmult_le_compat_l; lra).
    assert (Rabs f1 * Rabs f2 <= 0.8 * t * (0.8 * t)) by (apply Rmult_le_compat; try apply Rabs_pos; assumption). lra. }
  assert (T2' : Rabs ((d1 * d2 - c1 * c2) * (B * B)) <= 3.2 * t * s + 0.64 * (t * t)).
  { rewrite Rabs_mult, (Rabs_pos_eq (B * B)), <- bb by exact BB.
    apply Rle_trans with ((0.8 * t * (c1 + c2) + 0.64 * (t * t)) * (b * b)); [apply Rmult_le_compat_r; [nra|exact T2]|].
    assert (0.8 * t * ((c1 + c2) * (b * b)) <= 0.8 * t * (4 * s)) by (apply Rmult_le_compat_l; lra).
    assert (0.64 * (t * t) * (b * b) <= 0.64 * (t * t) * 1) by (apply Rmult_le_compat_l; nra). lra. }
  assert (T3 : Rabs (B' * B' - B * B) <= 2.1 * t * (2 * b + 2.1 * t)).
  { replace (B' * B' - B * B) with (eb * (2 * B + eb)) by (unfold eb; ring). rewrite Rabs_mult.
    apply Rmult_le_compat; try apply Rabs_pos; [exact EB|]. eapply Rle_trans; [apply Rabs_triang|]. rewrite Rabs_mult, (Rabs_pos_eq 2) by lra. fold b. lra. }
  assert (T3' : Rabs (d1 * d2 * (B' * B' - B * B)) <= 4.2 * t * s + 12 * (t * t)).
  { rewrite Rabs_mult.
    assert (D : Rabs (d1 * d2) <= c1 * c2 + 1.6 * t + 0.64 * (t * t)).
    { replace (d1 * d2) with (c1 * c2 + (d1 * d2 - c1 * c2)) by ring. eapply Rle_trans; [apply Rabs_triang|]. rewrite (Rabs_pos_eq (c1 * c2)) by exact c12.
      assert (0.8 * t * (c1 + c2) <= 0.8 * t * 2) by (apply Rmult_le_compat_l; lra). lra. }
    apply Rle_trans with ((c1 * c2 + 1.6 * t + 0.64 * (t * t)) * (2.1 * t * (2 * b + 2.1 * t))).
    { apply Rmult_le_compat; try apply Rabs_pos; assumption. }
    assert (c1 * c2 <= 1) by nra.
    assert (2.1 * t * (2 * (c1 * c2 * b)) <= 2.1 * t * (2 * s)) by (apply Rmult_le_compat_l; lra).
    assert (X : c1 * c2 * (2.1 * t * (2.1 * t)) <= 1 * (2.1 * t * (2.1 * t))) by (apply Rmult_le_compat_r; nra).
    assert (Y : (1.6 * t + 0.64 * (t * t)) * (2.1 * t * (2 * b + 2.1 * t)) <= (1.61 * t) * (2.1 * t * 2.1)).
    { apply Rmult_le_compat; try nra. }
    nra. }
  assert (tt : 0 <= t * t) by nra.
  assert (KH : Rabs (k - h) <= 11.6 * t * s + 18 * (t * t)).
  { replace (k - h) with (A' * A' - A * A + (d1 * d2 - c1 * c2) * (B * B) + d1 * d2 * (B' * B' - B * B)) by (unfold k, h; ring).
    eapply Rle_trans; [apply Rabs_triang|]. eapply Rle_trans; [apply Rplus_le_compat_r, Rabs_triang|]. lra. }
  assert (K1 : Rabs k <= s + 0.02 * s + 18 * (t * t)).
  { replace k with (h + (k - h)) by ring. eapply Rle_trans; [apply Rabs_triang|]. rewrite (Rabs_pos_eq h) by exact Hh.
    assert (h <= s) by nra. assert (11.6 * t * s <= 0.02 * s) by (apply Rmult_le_compat_r; lra). lra. }
  replace (19.5 * t) with (3 * (6.5 * t)) by lra. apply sqrt_close; try assumption; [lra|]. fold s.
  replace (h' - h) with ((h' - k) + (k - h)) by ring. eapply Rle_trans; [apply Rabs_triang|].
  assert (0.6 * t * Rabs k <= 0.6 * t * (s + 0.02 * s + 18 * (t * t))) by (apply Rmult_le_compat_l; lra).
  assert (0.6 * t * (18 * (t * t)) <= t * t) by nra.
  nra.
Qed.
Lemma sin_ge_small x : 0 <= x <= / 10 -> x <= 1.01 * sin x.
Proof.
  intros H. destruct (Req_dec x 0) as [->|N]; [rewrite sin_0; lra|].
  assert (D : forall c, 0 <= c <= x -> derivable_pt_lim (fun y => 1.01 * sin y) c (1.01 * cos c)).
  { intros c _. apply derivable_pt_lim_scal. apply derivable_pt_lim_sin. }
  destruct (MVT_cor2 (fun y => 1.01 * sin y) (fun y => 1.01 * cos y) 0 x) as (c & E & C); [lra|exact D|].
  rewrite sin_0 in E. assert (0.995 <= cos c).
  { replace c with (2 * (c / 2)) by field. rewrite cos_2a_sin. pose proof (sin_abs (c / 2)) as S. rewrite (Rabs_pos_eq (c / 2)) in S by lra. apply abs_bounds in S. nra. }
  nra.
Qed.
Lemma asin_range x : 0 <= x <= 1 -> 0 <= asin x <= PI / 2 /\ sin (asin x) = x.
Proof.
  intros H. assert (S : sin (asin x) = x) by (apply sin_asin; lra). pose proof (asin_bound x) as B. split; [|exact S]. split; [|apply B].
  destruct (Rle_or_lt 0 (asin x)) as [|L]; auto. exfalso. pose proof PI_RGT_0. assert (sin (asin x) < 0) by (apply sin_lt_0_var; lra). lra.
Qed.
(** half the difference of two angles up to 90 degrees, from that of their sines *)
Lemma half_angle a b : 0 <= b <= a -> a <= PI / 2 -> let d := (a - b) / 2 in
  0 <= d <= PI / 4 /\ sin a - sin b = 2 * cos ((a + b) / 2) * sin d /\ 0 <= sin d <= cos ((a + b) / 2).
Proof.
  intros H1 H2. cbn zeta. pose proof PI_RGT_0. split; [lra|]. split; [apply form4|]. split; [apply sin_ge_0; lra|].
  rewrite <- (cos_shift ((a - b) / 2)). apply cos_decr_1; lra.
Qed.
Lemma asin_holder x y e : 0 <= x <= 1 -> 0 <= y <= 1 -> 0 <= e <= / 100 -> Rabs (x - y) <= 2 * (e * e) -> Rabs (asin x - asin y) <= 2.02 * e.
Proof.
  assert (W : forall x y, 0 <= x <= 1 -> 0 <= y <= 1 -> 0 <= e <= / 100 -> Rabs (x - y) <= 2 * (e * e) -> asin y <= asin x -> asin x - asin y <= 2.02 * e).
  { clear. intros x y X Y E H O. destruct (asin_range x X) as [Rx Sx]. destruct (asin_range y Y) as [Ry Sy].
    destruct (half_angle (asin x) (asin y)) as (D & F & S); [lra|lra|]. set (d := (asin x - asin y) / 2) in *. rewrite Sx, Sy in F. apply abs_bounds in H.
    assert (sin d <= e). { destruct (Rle_or_lt (sin d) e) as [|L]; auto. exfalso. assert (e * e < cos ((asin x + asin y) / 2) * sin d) by nra. lra. }
    pose proof PI_RGT_0. assert (d <= 2 * sin d) by (apply sin_ge_half; lra). assert (d <= 1.01 * sin d) by (apply sin_ge_small; lra).
    unfold d in *. lra. }
  intros X Y E H. apply Rabs_le. destruct (Rle_or_lt (asin y) (asin x)) as [O|O].
  - pose proof (W x y X Y E H O). lra.
  - rewrite <- Rabs_Ropp, Ropp_minus_distr in H. pose proof (W y x Y X E H (Rlt_le _ _ O)). lra.
Qed.
Lemma asin_near x y k dl : 0 <= x <= 1 -> 0 <= y <= 1 -> 0 < k -> 2.04 * k <= PI / 2 - asin x -> k <= / 25 -> dl <= k / 100 -> Rabs (x - y) <= dl ->
  Rabs (asin x - asin y) <= 1.01 * dl / k.
Proof.
  intros X Y K KA K1 DL H. destruct (asin_range x X) as [Rx Sx]. destruct (asin_range y Y) as [Ry Sy].
  assert (C : k <= cos ((asin x + asin y) / 2)).
  { apply Rle_trans with (sin (1.02 * k)).
    - assert (1.02 * k <= 1.01 * sin (1.02 * k)) by (apply sin_ge_small; lra). lra.
    - rewrite <- (cos_shift (1.02 * k)). apply cos_decr_1; lra. }
  set (q := cos ((asin x + asin y) / 2)) in *.
  assert (W : forall d, 0 <= d <= PI / 4 -> 2 * q * sin d <= dl -> 2 * d <= 1.01 * dl / k).
  { intros d D F. pose proof PI_RGT_0. assert (0 <= sin d) by (apply sin_ge_0; lra).
    assert (S : sin d <= dl / (2 * k)). { apply Rmult_le_reg_r with (2 * k); [lra|]. replace (dl / (2 * k) * (2 * k)) with dl by (field; lra). nra. }
    assert (dl / (2 * k) <= / 100). { apply Rmult_le_reg_r with (2 * k); [lra|]. replace (dl / (2 * k) * (2 * k)) with dl by (field; lra). lra. }
    assert (d <= 2 * sin d) by (apply sin_ge_half; lra). assert (d <= 1.01 * sin d) by (apply sin_ge_small; lra).
    replace (1.01 * dl / k) with (2 * (1.01 * (dl / (2 * k)))) by (field; lra). lra. }
  apply abs_bounds in H. apply Rabs_le. destruct (Rle_or_lt (asin y) (asin x)) as [O|O].
  - destruct (half_angle (asin x) (asin y)) as (D & F & S); [lra|lra|]. rewrite Sx, Sy in F. fold q in F. pose proof (W _ D ltac:(lra)). lra.
  - destruct (half_angle (asin y) (asin x)) as (D & F & S); [lra|lra|]. rewrite Sx, Sy in F. rewrite (Rplus_comm (asin y)) in F. fold q in F. pose proof (W _ D ltac:(lra)). lra.
Qed.
