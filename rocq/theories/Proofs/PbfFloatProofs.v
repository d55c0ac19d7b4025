(** Coordinates and times in PBF files: the double computations. *)
From Coq Require Import Reals Lra.
From Flocq Require Import Core IEEE754.BinarySingleNaN IEEE754.Binary IEEE754.Bits.
From Verif Require Import Base.Prelude Model.Osm Model.Float Model.Pbf Spec.FloatSpec Proofs.FloatProofs.
Local Open Scope R_scope.

Lemma nano : val (d_of_Z lonlat_resolution) = 1000000000 /\ fin (d_of_Z lonlat_resolution) = true.
Proof. apply (d_of_Z_spec 1000000000). lia. Qed.

(** the coordinate in nanodegrees as a double *)
Lemma nano_coord x : in_i32 x -> exists d, d = d_mul (fix_to_double x) (d_of_Z lonlat_resolution) /\ fin d = true /\
  Rabs (val d - IZR (100 * x)) <= / 10000.
Proof.
  intros Hx. assert (Ha : (Z.abs x <= 2147483648)%Z) by (unfold in_i32, int32_min, int32_max in Hx; lia).
  destruct (fix_to_double_err x Ha) as (e & h & He & Hh & V & F). destruct nano as [V9 F9].
  assert (Hxr : Rabs (IZR x) <= 2147483648) by (apply Rabs_IZR_le in Ha; exact Ha).
  pose proof u64_small as Us; pose proof eta64_small as Es.
  set (q := IZR x / 10000000) in *.
  assert (Hq : Rabs q <= 215). { unfold q, Rdiv. rewrite Rabs_mult, (Rabs_pos_eq (/ 10000000)) by lra. lra. }
  assert (H1 : Rabs (q * e + h) <= / 1000000000000 * 3 / 100).
  { eapply Rle_trans; [apply Rabs_triang|]. pose proof (Rabs_le_mult _ _ _ _ Hq He). unfold u64 in *. lra. }
  assert (Hv : Rabs (val (fix_to_double x)) <= 216).
  { rewrite V. replace (q * (1 + e) + h) with (q + (q * e + h)) by ring. eapply Rle_trans; [apply Rabs_triang|]. lra. }
  destruct (d_mul_err (fix_to_double x) (d_of_Z lonlat_resolution)) as (e2 & h2 & He2 & Hh2 & V2 & F2); [exact F|exact F9| |].
  { rewrite V9. assert (Rabs (val (fix_to_double x) * 1000000000) <= 216 * 1000000000); [|unfold big; lra].
    apply Rabs_le_mult; [exact Hv|rewrite Rabs_pos_eq; lra]. }
  eexists; split; [reflexivity|]. split; [exact F2|]. rewrite V2, V9.
  rewrite mult_IZR. replace (IZR 100 * IZR x) with (q * 1000000000) by (unfold q; field).
  set (v := val (fix_to_double x)) in *.
  replace (v * 1000000000 * (1 + e2) + h2 - q * 1000000000) with ((v - q) * 1000000000 + (v * 1000000000 * e2 + h2)) by ring.
  assert (A1 : Rabs ((v - q) * 1000000000) <= / 1000000000000 * 3 / 100 * 1000000000).
  { apply Rabs_le_mult; [|rewrite Rabs_pos_eq; lra]. rewrite V. replace (q * (1 + e) + h - q) with (q * e + h) by ring. exact H1. }
  assert (A2 : Rabs (v * 1000000000 * e2) <= 216 * 1000000000 * u64).
  { apply Rabs_le_mult; [|exact He2]. apply Rabs_le_mult; [exact Hv|rewrite Rabs_pos_eq; lra]. }
  eapply Rle_trans; [apply Rabs_triang|]. eapply Rle_trans; [apply Rplus_le_compat_l, Rabs_triang|]. unfold u64 in *.
  assert (216 * 1000000000 * / 9007199254740992 <= / 30000) by lra. lra.
Qed.

Lemma gran_facts g : (1 <= g <= 2147483647)%Z -> val (d_of_Z g) = IZR g /\ fin (d_of_Z g) = true /\ 1 <= IZR g.
Proof.
  intros H. destruct (d_of_Z_spec g) as [V F]; [lia|]. split; [exact V|]. split; [exact F|]. apply (IZR_le 1). lia.
Qed.

Lemma div_abs_le a g A : Rabs a <= A -> 1 <= g -> 0 <= A -> Rabs (a / g) <= A.
Proof.
  intros H Hg HA. unfold Rdiv. rewrite Rabs_mult. rewrite (Rabs_pos_eq (/ g)) by (left; apply Rinv_0_lt_compat; lra).
  assert (/ g <= 1) by (rewrite <- Rinv_1; apply Rinv_le_contravar; lra).
  assert (0 < / g) by (apply Rinv_0_lt_compat; lra).
  pose proof (Rmult_le_compat (Rabs a) A (/ g) 1 (Rabs_pos a) ltac:(lra) H ltac:(lra)). lra.
Qed.

Lemma lonlat_pre x g : in_i32 x -> (1 <= g <= 2147483647)%Z ->
  exists d, d = d_div (d_mul (fix_to_double x) (d_of_Z lonlat_resolution)) (d_of_Z g) /\ fin d = true /\
    Rabs (val d - IZR (100 * x) / IZR g) <= / 1000 /\ Rabs (IZR (100 * x) / IZR g) <= 214748364800.
Proof.
  intros Hx Hg. destruct (nano_coord x Hx) as (m & Em & Fm & Hm). rewrite <- Em.
  destruct (gran_facts g Hg) as (Vg & Fg & G1). pose proof u64_small as Us; pose proof eta64_small as Es.
  assert (Hb : Rabs (IZR (100 * x)) <= 214748364800).
  { apply (Rabs_IZR_le _ 214748364800). unfold in_i32, int32_min, int32_max in Hx. lia. }
  assert (Hmb : Rabs (val m) <= 214748364801).
  { replace (val m) with ((val m - IZR (100 * x)) + IZR (100 * x)) by ring. eapply Rle_trans; [apply Rabs_triang|]. lra. }
  assert (Hq : Rabs (val m / IZR g) <= 214748364801) by (apply div_abs_le; auto; lra).
  destruct (d_div_err m (d_of_Z g)) as (e & h & He & Hh & V & F); [exact Fm|rewrite Vg; lra|rewrite Vg; unfold big; lra|].
  eexists; split; [reflexivity|]. split; [exact F|]. split; [|apply div_abs_le; auto; lra].
  rewrite V, Vg. 
  replace (val m / IZR g * (1 + e) + h - IZR (100 * x) / IZR g) with ((val m - IZR (100 * x)) / IZR g + (val m / IZR g * e + h)) by (unfold Rdiv; ring).
  assert (A1 : Rabs ((val m - IZR (100 * x)) / IZR g) <= / 10000) by (apply div_abs_le; auto; lra).
  pose proof (Rabs_le_mult _ _ _ _ Hq He) as A2.
  eapply Rle_trans; [apply Rabs_triang|]. eapply Rle_trans; [apply Rplus_le_compat_l, Rabs_triang|]. unfold u64 in *.
  assert (214748364801 * / 9007199254740992 <= / 40000) by lra. lra.
Qed.

Lemma lonlat2int_near x g : in_i32 x -> (1 <= g <= 2147483647)%Z ->
  exists n, lonlat2int g (fix_to_double x) = Ok n /\ Rabs (IZR n - IZR (100 * x) / IZR g) <= / 2 + / 1000 /\ (Z.abs n <= 214748364801)%Z.
Proof.
  intros Hx Hg. destruct (lonlat_pre x g Hx Hg) as (d & Ed & Fd & Hd & Hb).
  pose proof (ZnearestA_half (val d)) as Hh. set (n := ZnearestA (val d)) in *.
  assert (A : Rabs (IZR n - IZR (100 * x) / IZR g) <= / 2 + / 1000).
  { replace (IZR n - IZR (100 * x) / IZR g) with ((IZR n - val d) + (val d - IZR (100 * x) / IZR g)) by ring.
    eapply Rle_trans; [apply Rabs_triang|]. rewrite (Rabs_minus_sym (IZR n)). lra. }
  assert (B : (Z.abs n <= 214748364801)%Z).
  { assert (Rabs (IZR n) < 214748364802).
    { replace (IZR n) with ((IZR n - IZR (100 * x) / IZR g) + IZR (100 * x) / IZR g) by ring.
      eapply Rle_lt_trans; [apply Rabs_triang|]. lra. }
    rewrite <- abs_IZR in H. apply lt_IZR in H. lia. }
  exists n. split; [|split; assumption]. unfold lonlat2int. rewrite <- Ed. unfold d_to_i64. apply d_cast_round; [exact Fd|].
  fold n. unfold int64_min, int64_max. lia.
Qed.

Lemma IZR_div_exact a g : (g <> 0)%Z -> (a mod g = 0)%Z -> IZR a / IZR g = IZR (a / g).
Proof.
  intros Hg Hm. assert (E : (a = g * (a / g))%Z) by (pose proof (Z_div_mod_eq_full a g); lia).
  rewrite E at 1. rewrite mult_IZR. field. apply not_0_IZR. exact Hg.
Qed.
Lemma lonlat2int_exact x g : in_i32 x -> (1 <= g <= 2147483647)%Z -> ((100 * x) mod g = 0)%Z ->
  lonlat2int g (fix_to_double x) = Ok (100 * x / g)%Z.
Proof.
  intros Hx Hg Hm. destruct (lonlat_pre x g Hx Hg) as (d & Ed & Fd & Hd & Hb).
  rewrite IZR_div_exact in Hd, Hb by (auto; lia).
  unfold lonlat2int. rewrite <- Ed. unfold d_to_i64. apply d_cast_round_near; [exact Fd| |].
  - eapply Rle_lt_trans; [exact Hd|]. lra.
  - rewrite <- abs_IZR in Hb. apply le_IZR in Hb. unfold int64_min, int64_max. lia.
Qed.
Lemma lonlat2int_100 x : in_i32 x -> lonlat2int 100 (fix_to_double x) = Ok x.
Proof.
  intros H. rewrite lonlat2int_exact; auto; [f_equal|lia|]; rewrite (Z.mul_comm 100); [apply Z.div_mul; lia|apply Z.mod_mul; lia].
Qed.

(* ---- times ---- *)
Lemma div_1000 : val (d_div (d_of_Z 1000) (d_of_Z 1000)) = 1 /\ fin (d_div (d_of_Z 1000) (d_of_Z 1000)) = true.
Proof.
  destruct (d_of_Z_spec 1000) as [V F]; [lia|]. destruct (d_of_Z_spec 1) as [V1 F1]; [lia|].
  assert (E : val (d_of_Z 1000) / val (d_of_Z 1000) = 1) by (rewrite V; field).
  destruct (d_div_spec (d_of_Z 1000) (d_of_Z 1000) F) as [VD FD].
  - rewrite V. lra.
  - rewrite E, Rabs_R1. unfold big. lra.
  - split; [|exact FD]. rewrite VD, E. rewrite <- V1. apply round_generic; [apply valid_rnd_N|]. apply (Binary.generic_format_B2R 53 1024).
Qed.
Lemma mul_one ts y : (Z.abs ts <= 9007199254740992)%Z -> val y = 1 -> fin y = true ->
  val (d_mul (d_of_Z ts) y) = IZR ts /\ fin (d_mul (d_of_Z ts) y) = true.
Proof.
  intros H V1 F1. destruct (d_of_Z_spec ts H) as [V F].
  assert (Hb : Rabs (IZR ts) <= 9007199254740992) by (apply Rabs_IZR_le in H; exact H).
  destruct (d_mul_spec (d_of_Z ts) y F F1) as [VM FM]; [rewrite V, V1, Rmult_1_r; unfold big; lra|].
  split; [|exact FM]. rewrite VM, V1, Rmult_1_r. rewrite round_generic; [exact V|apply valid_rnd_N|].
  apply (Binary.generic_format_B2R 53 1024).
Qed.
Lemma timestamp2int_1000 ts : (Z.abs ts <= 9007199254740992)%Z -> timestamp2int 1000 ts = Ok ts.
Proof.
  intros H. unfold timestamp2int. destruct div_1000 as [VD FD].
  destruct (mul_one ts _ H VD FD) as [V F]. unfold d_to_i64. apply d_cast_round_near; [exact F| |unfold int64_min, int64_max; lia].
  rewrite V. unfold Rminus. rewrite Rplus_opp_r, Rabs_R0. lra.
Qed.

(** up to the year 4147 *)
Lemma timestamp2int_near ts g : (Z.abs ts <= 68719476736)%Z -> (1 <= g <= 2147483647)%Z ->
  exists n, timestamp2int g ts = Ok n /\ Rabs (IZR n - IZR (1000 * ts) / IZR g) <= / 2 + / 10 /\ (Z.abs n <= 68719476736001)%Z /\
    (((1000 * ts) mod g = 0)%Z -> (n = 1000 * ts / g)%Z).
Proof.
  intros Ht Hg. destruct (gran_facts g Hg) as (Vg & Fg & G1). pose proof u64_small as Us; pose proof eta64_small as Es.
  destruct (d_of_Z_spec ts) as [V F]; [lia|]. destruct (d_of_Z_spec 1000) as [V1 F1]; [lia|].
  assert (Hb : Rabs (IZR ts) <= 68719476736) by (apply Rabs_IZR_le in Ht; exact Ht).
  assert (H1000 : Rabs (IZR 1000) <= 1000) by (rewrite Rabs_pos_eq; lra).
  set (r := IZR 1000 / IZR g) in *.
  assert (Hr : Rabs r <= 1000) by (apply div_abs_le; auto; lra).
  destruct (d_div_err (d_of_Z 1000) (d_of_Z g)) as (e & h & He & Hh & VD & FD); [exact F1|rewrite Vg; lra|rewrite V1, Vg; unfold big; fold r; lra|].
  rewrite V1, Vg in VD. fold r in VD. set (dv := d_div (d_of_Z 1000) (d_of_Z g)) in *.
  assert (E1 : Rabs (val dv - r) <= 1000 * u64 + eta64).
  { rewrite VD. replace (r * (1 + e) + h - r) with (r * e + h) by ring. eapply Rle_trans; [apply Rabs_triang|].
    pose proof (Rabs_le_mult _ _ _ _ Hr He). lra. }
  assert (Hdv : Rabs (val dv) <= 1001).
  { replace (val dv) with ((val dv - r) + r) by ring. eapply Rle_trans; [apply Rabs_triang|]. lra. }
  destruct (d_mul_err (d_of_Z ts) dv) as (e2 & h2 & He2 & Hh2 & VM & FM); [exact F|exact FD| |].
  { rewrite V. pose proof (Rabs_le_mult _ _ _ _ Hb Hdv). unfold big. lra. }
  rewrite V in VM. set (d := d_mul (d_of_Z ts) dv) in *.
  assert (EQ : IZR (1000 * ts) / IZR g = IZR ts * r) by (unfold r; rewrite mult_IZR; unfold Rdiv; ring).
  assert (A : Rabs (val d - IZR ts * r) <= / 10).
  { rewrite VM. replace (IZR ts * val dv * (1 + e2) + h2 - IZR ts * r) with (IZR ts * (val dv - r) + (IZR ts * val dv * e2 + h2)) by ring.
    pose proof (Rabs_le_mult _ _ _ _ Hb E1) as P1.
    pose proof (Rabs_le_mult _ _ _ _ (Rabs_le_mult _ _ _ _ Hb Hdv) He2) as P2.
    eapply Rle_trans; [apply Rabs_triang|]. eapply Rle_trans; [apply Rplus_le_compat_l, Rabs_triang|]. unfold u64, eta64 in *.
    lra. }
  assert (Hbb : Rabs (IZR ts * r) <= 68719476736 * 1000) by (apply Rabs_le_mult; assumption).
  pose proof (ZnearestA_half (val d)) as HN. set (n := ZnearestA (val d)) in *.
  assert (A2 : Rabs (IZR n - IZR (1000 * ts) / IZR g) <= / 2 + / 10).
  { rewrite EQ. replace (IZR n - IZR ts * r) with ((IZR n - val d) + (val d - IZR ts * r)) by ring.
    eapply Rle_trans; [apply Rabs_triang|]. rewrite (Rabs_minus_sym (IZR n)). lra. }
  assert (B : (Z.abs n <= 68719476736001)%Z).
  { assert (Rabs (IZR n) < 68719476736002).
    { replace (IZR n) with ((IZR n - IZR (1000 * ts) / IZR g) + IZR (1000 * ts) / IZR g) by ring.
      rewrite EQ in *. eapply Rle_lt_trans; [apply Rabs_triang|]. lra. }
    rewrite <- abs_IZR in H. apply lt_IZR in H. lia. }
  exists n. split; [|split; [exact A2|split; [exact B|]]].
  - unfold timestamp2int. fold dv. fold d. unfold d_to_i64. apply d_cast_round; [exact FM|]. fold n. unfold int64_min, int64_max. lia.
  - intros Hm. apply ZnearestA_imp. rewrite <- IZR_div_exact by (auto; lia). rewrite EQ. eapply Rle_lt_trans; [exact A|]. lra.
Qed.

(* ---- bounds in the header ---- *)
Lemma header_coord x : in_i32 x -> exists n,
  d_to_i64 (d_mul (fix_to_double x) (d_of_Z lonlat_resolution)) = Ok n /\ (Z.abs (n - 100 * x) <= 1)%Z /\
  ((0 <= x -> 0 <= n) /\ (x <= 0 -> n <= 0) /\ (0 <= x -> n <= 100 * x) /\ (x <= 0 -> 100 * x <= n))%Z.
Proof.
  intros Hx. destruct (nano_coord x Hx) as (m & Em & Fm & Hm). rewrite <- Em.
  assert (Hb : Rabs (IZR (100 * x)) <= 214748364800).
  { apply (Rabs_IZR_le _ 214748364800). unfold in_i32, int32_min, int32_max in Hx. lia. }
  assert (ET : Binary.Btrunc 53 1024 m = Ztrunc (val m)).
  { apply eq_IZR. rewrite (Binary.Btrunc_correct 53 1024 emax64). rewrite round_FIX_IZR. reflexivity. }
  set (z := (100 * x)%Z) in *. apply Rabs_le_inv in Hm.
  assert (Hz : (Ztrunc (val m) = z \/ (0 < z /\ Ztrunc (val m) = z - 1) \/ (z < 0 /\ Ztrunc (val m) = z + 1))%Z).
  { destruct (Z.lt_trichotomy z 0) as [L|[E|G]].
    - assert (IZR z <= -1) by (apply (IZR_le _ (-1)); lia). rewrite Ztrunc_ceil by lra.
      destruct (Rle_lt_dec (val m) (IZR z)) as [H1|H1].
      + left. apply Zceil_imp. rewrite minus_IZR. lra.
      + right; right. split; [exact L|]. apply Zceil_imp. rewrite minus_IZR, !plus_IZR. lra.
    - rewrite E in *. left. destruct (Rle_lt_dec 0 (val m)).
      + rewrite Ztrunc_floor by lra. apply Zfloor_imp. cbn. lra.
      + rewrite Ztrunc_ceil by lra. apply Zceil_imp. cbn. lra.
    - assert (1 <= IZR z) by (apply (IZR_le 1); lia). rewrite Ztrunc_floor by lra.
      destruct (Rle_lt_dec (IZR z) (val m)) as [H1|H1].
      + left. apply Zfloor_imp. rewrite plus_IZR. lra.
      + right; left. split; [exact G|]. apply Zfloor_imp. rewrite plus_IZR, minus_IZR. lra. }
  exists (Ztrunc (val m)). split.
  - unfold d_to_i64, d_cast. rewrite Fm, ET.
    destruct ((int64_min <=? Ztrunc (val m))%Z && (Ztrunc (val m) <=? int64_max)%Z)%bool eqn:E; [reflexivity|].
    exfalso. rewrite <- abs_IZR in Hb. apply le_IZR in Hb. unfold int64_min, int64_max in E. lia.
  - unfold z in *. split; [lia|]. repeat split; lia.
Qed.
