From Verif Require Import Base.Prelude Base.Decimal Model.Time Spec.TimeSpec.

(* ---- calendar ---- *)
Local Arguments leap_year : simpl never.
Lemma leap_spec y : leap_year y = true <-> leap y.
Proof.
  unfold leap_year, leap. rewrite <- !Z.mod_divide by lia. lia.
Qed.
Lemma leap_dec y : leap y \/ ~ leap y.
Proof. rewrite <- leap_spec. destruct (leap_year y); [left|right]; congruence. Qed.

Definition mlen (y m : Z) : Z := nth (Z.to_nat (m - 1)) (month_lengths y) 0.
Definition valid (d : date) : Prop := 1 <= d_month d <= 12 /\ 1 <= d_day d <= mlen (d_year d) (d_month d).
Definition daynum (d : date) : Z :=
  days_before_year (d_year d - 1) + days_before_month (d_year d) (d_month d) + (d_day d - 1) - epoch_days.

Ltac months m := 
  let H := fresh in
  assert (H : m = 1 \/ m = 2 \/ m = 3 \/ m = 4 \/ m = 5 \/ m = 6 \/ m = 7 \/ m = 8 \/ m = 9 \/ m = 10 \/ m = 11 \/ m = 12) by lia;
  repeat (destruct H as [H|H]); subst m.

Ltac mcalc := unfold mlen, days_before_month, month_lengths;
  repeat match goal with |- context [Z.to_nat ?e] => let v := eval vm_compute in (Z.to_nat e) in change (Z.to_nat e) with v end;
  cbn [nth firstn zsum].

Lemma month_days_mlen y m n : month_days y m n -> 1 <= m <= 12 /\ n = mlen y m.
Proof.
  intros H. inversion H; subst.
  - cbn in H0. intuition subst; try lia; reflexivity.
  - cbn in H0. intuition subst; try lia; reflexivity.
  - split; [lia|]. mcalc. destruct (leap_year y) eqn:E; [|reflexivity]. apply leap_spec in E. tauto.
  - split; [lia|]. mcalc. apply leap_spec in H0. rewrite H0. reflexivity.
Qed.
Lemma mlen_month_days y m : 1 <= m <= 12 -> month_days y m (mlen y m).
Proof.
  intros H. months m; mcalc;
    try (apply md_31; cbn; tauto); try (apply md_30; cbn; tauto).
  destruct (leap_year y) eqn:E; [apply md_29; apply leap_spec; exact E|].
  apply md_28. rewrite <- leap_spec. congruence.
Qed.
Lemma mlen_range y m : 1 <= m <= 12 -> 28 <= mlen y m <= 31.
Proof. intros H. months m; mcalc; try lia; destruct (leap_year y); lia. Qed.
Lemma dbm_next y m : 1 <= m -> m < 12 -> days_before_month y (m + 1) = days_before_month y m + mlen y m.
Proof. intros H1 H2. assert (H : 1 <= m <= 12) by lia. clear H1. months m; mcalc; try lia; destruct (leap_year y); lia. Qed.
Lemma dbm_last y : days_before_month y 12 + 31 = (if leap_year y then 366 else 365).
Proof. mcalc; destruct (leap_year y); reflexivity. Qed.
Lemma dbm_1 y : days_before_month y 1 = 0.
Proof. reflexivity. Qed.
Lemma dby_next k : days_before_year (k + 1) = days_before_year k + (if leap_year (k + 1) then 366 else 365).
Proof.
  unfold days_before_year, leap_year.
  assert (A4 : (k + 1) / 4 = k / 4 + (if (k + 1) mod 4 =? 0 then 1 else 0)) by (destruct (Z.eqb_spec ((k + 1) mod 4) 0); lia).
  assert (A100 : (k + 1) / 100 = k / 100 + (if (k + 1) mod 100 =? 0 then 1 else 0)) by (destruct (Z.eqb_spec ((k + 1) mod 100) 0); lia).
  assert (A400 : (k + 1) / 400 = k / 400 + (if (k + 1) mod 400 =? 0 then 1 else 0)) by (destruct (Z.eqb_spec ((k + 1) mod 400) 0); lia).
  rewrite A4, A100, A400. clear.
  assert (I1 : (k + 1) mod 400 = 0 -> (k + 1) mod 100 = 0) by lia.
  assert (I2 : (k + 1) mod 100 = 0 -> (k + 1) mod 4 = 0) by lia.
  destruct (Z.eqb_spec ((k + 1) mod 4) 0), (Z.eqb_spec ((k + 1) mod 100) 0), (Z.eqb_spec ((k + 1) mod 400) 0); cbn [andb orb negb]; 
    generalize (k / 4) (k / 100) (k / 400); intros; tauto || lia.
Qed.
Lemma dby_mono k j : k <= j -> days_before_year k <= days_before_year j.
Proof.
  intros H. replace j with (k + Z.of_nat (Z.to_nat (j - k))) by lia. generalize (Z.to_nat (j - k)). clear.
  induction n as [|n IH]; [replace (k + Z.of_nat 0) with k by lia; lia|].
  replace (k + Z.of_nat (S n)) with (k + Z.of_nat n + 1) by lia. rewrite dby_next. destruct (leap_year _); lia.
Qed.
Lemma dbm_mono y m m' : 1 <= m -> m < m' -> m' <= 12 -> days_before_month y m + mlen y m <= days_before_month y m'.
Proof.
  intros H1 H2 H3. rewrite <- dbm_next by lia. replace m' with (m + 1 + Z.of_nat (Z.to_nat (m' - m - 1))) by lia.
  assert (G : Z.of_nat (Z.to_nat (m' - m - 1)) <= 12 - (m + 1)) by lia.
  revert G. generalize (Z.to_nat (m' - m - 1)). induction n as [|n IH]; intros G.
  - replace (m + 1 + Z.of_nat 0) with (m + 1) by lia. lia.
  - replace (m + 1 + Z.of_nat (S n)) with (m + 1 + Z.of_nat n + 1) by lia. rewrite (dbm_next y (m + 1 + Z.of_nat n)) by lia.
    pose proof (mlen_range y (m + 1 + Z.of_nat n) ltac:(lia)). specialize (IH ltac:(lia)). lia.
Qed.
Lemma dbm_in_year y m : 1 <= m <= 12 -> 0 <= days_before_month y m /\ days_before_month y m + mlen y m <= (if leap_year y then 366 else 365).
Proof. intros H. months m; mcalc; destruct (leap_year y); lia. Qed.

Definition date_lt (a b : date) : Prop :=
  d_year a < d_year b \/ d_year a = d_year b /\ (d_month a < d_month b \/ d_month a = d_month b /\ d_day a < d_day b).
Lemma daynum_lt a b : valid a -> valid b -> date_lt a b -> daynum a < daynum b.
Proof.
  destruct a as [y m d], b as [y' m' d']. intros [Hm Hd] [Hm' Hd'] H. cbn [d_year d_month d_day] in *.
  unfold date_lt, daynum in *; cbn [d_year d_month d_day] in *.
  pose proof (dbm_in_year y m Hm) as A. pose proof (dbm_in_year y' m' Hm') as B.
  destruct H as [H | [<- [H | [<- H]]]].
  - pose proof (dby_next (y - 1)) as N. replace (y - 1 + 1) with y in N by lia.
    pose proof (dby_mono y (y' - 1) ltac:(lia)). destruct (leap_year y); lia.
  - pose proof (dbm_mono y m m' ltac:(lia) ltac:(lia) ltac:(lia)). lia.
  - lia.
Qed.
Lemma date_trichotomy a b : date_lt a b \/ a = b \/ date_lt b a.
Proof.
  destruct a as [y m d], b as [y' m' d']; unfold date_lt; cbn.
  destruct (Z.lt_total y y') as [|[->|]]; [lia| |lia].
  destruct (Z.lt_total m m') as [|[->|]]; [lia| |lia].
  destruct (Z.lt_total d d') as [|[->|]]; [lia|auto|lia].
Qed.
Lemma daynum_inj a b : valid a -> valid b -> daynum a = daynum b -> a = b.
Proof.
  intros Va Vb E. destruct (date_trichotomy a b) as [H|[H|H]]; [|exact H|].
  - pose proof (daynum_lt a b Va Vb H). lia.
  - pose proof (daynum_lt b a Vb Va H). lia.
Qed.
Lemma daynum_lt_inv a b : valid a -> valid b -> daynum a < daynum b -> date_lt a b.
Proof.
  intros Va Vb E. destruct (date_trichotomy a b) as [H|[H|H]]; [exact H|subst; lia|].
  pose proof (daynum_lt b a Vb Va H). lia.
Qed.

Lemma next_day_valid a b : valid a -> next_day a b -> valid b /\ daynum b = daynum a + 1.
Proof.
  intros V N. destruct V as [Hm Hd]. inversion N; subst; cbn [d_year d_month d_day] in *.
  - apply month_days_mlen in H as [_ ->]. unfold valid, daynum; cbn [d_year d_month d_day]. lia.
  - apply month_days_mlen in H as [_ ->]. unfold valid, daynum; cbn [d_year d_month d_day].
    rewrite dbm_next by lia. pose proof (mlen_range y (m + 1) ltac:(lia)). lia.
  - unfold valid, daynum; cbn [d_year d_month d_day]. rewrite dbm_1.
    pose proof (mlen_range (y + 1) 1 ltac:(lia)). pose proof (dby_next (y - 1)) as E. pose proof (dbm_last y).
    replace (y - 1 + 1) with y in E by lia. replace (y + 1 - 1) with y by lia. lia.
Qed.
Lemma next_day_exists a : valid a -> exists b, next_day a b.
Proof.
  destruct a as [y m d]. intros [Hm Hd]. cbn [d_year d_month d_day] in *. pose proof (mlen_month_days y m Hm) as M.
  destruct (Z.eq_dec d (mlen y m)) as [E|E].
  - destruct (Z.eq_dec m 12) as [->|N].
    + eexists. apply nd_new. subst d. reflexivity.
    + eexists. eapply nd_year; eauto. lia.
  - eexists. eapply nd_month; eauto. lia.
Qed.
Lemma date_after_valid n d : date_after n d -> valid d /\ daynum d = n /\ 0 <= n.
Proof.
  induction 1 as [|n d d' H IH N].
  - split; [|split; [reflexivity|lia]]. split; [cbn; lia|]. unfold mlen; cbn. lia.
  - destruct IH as (V & E & G). destruct (next_day_valid d d' V N). split; [assumption|lia].
Qed.

(* gmtime *)
Lemma year_index_spec n : days_before_year (year_index n) <= n < days_before_year (year_index n + 1).
Proof.
  unfold year_index.
  assert (B : days_before_year (n * 400 / 146097 - 1) <= n /\ n < days_before_year (n * 400 / 146097 + 2)).
  { assert (K : 146097 * (n * 400 / 146097) <= n * 400 < 146097 * (n * 400 / 146097) + 146097) by lia.
    revert K. generalize (n * 400 / 146097). intros k K. unfold days_before_year. split.
    - pose proof (Z.mul_div_le (k - 1) 4). pose proof (Z.mul_succ_div_gt (k - 1) 100). pose proof (Z.mul_div_le (k - 1) 400).
      revert H H0 H1. generalize ((k - 1) / 4) ((k - 1) / 100) ((k - 1) / 400). lia.
    - pose proof (Z.mul_succ_div_gt (k + 2) 4). pose proof (Z.mul_div_le (k + 2) 100). pose proof (Z.mul_succ_div_gt (k + 2) 400).
      revert H H0 H1. generalize ((k + 2) / 4) ((k + 2) / 100) ((k + 2) / 400). lia. }
  destruct (Z.ltb_spec n (days_before_year (n * 400 / 146097))).
  - replace (n * 400 / 146097 - 1 + 1) with (n * 400 / 146097) by lia. lia.
  - destruct (Z.leb_spec (days_before_year (n * 400 / 146097 + 1)) n); [|lia].
    replace (n * 400 / 146097 + 1 + 1) with (n * 400 / 146097 + 2) by lia. lia.
Qed.
Lemma split_month_spec y yd : 0 <= yd < (if leap_year y then 366 else 365) ->
  let '(m, d) := split_month (month_lengths y) 1 yd in
  1 <= m <= 12 /\ 0 <= d < mlen y m /\ days_before_month y m + d = yd.
Proof.
  intros H. unfold month_lengths, mlen, days_before_month, month_lengths. 
  destruct (leap_year y); cbn [split_month];
  repeat match goal with |- context [if ?a <? ?b then _ else _] => destruct (Z.ltb_spec a b) end;
  cbv beta iota; mcalc; lia.
Qed.
Definition gm_date (n : Z) : date :=
  let k := year_index (n + epoch_days) in
  let '(m, d) := split_month (month_lengths (k + 1)) 1 (n + epoch_days - days_before_year k) in D (k + 1) m (d + 1).
Lemma gm_date_spec n : valid (gm_date n) /\ daynum (gm_date n) = n.
Proof.
  unfold gm_date. pose proof (year_index_spec (n + epoch_days)) as Y. rewrite dby_next in Y.
  pose proof (split_month_spec (year_index (n + epoch_days) + 1) (n + epoch_days - days_before_year (year_index (n + epoch_days))) ltac:(lia)) as S.
  destruct (split_month _ _ _) as [m d]. unfold valid, daynum; cbn [d_year d_month d_day].
  replace (year_index (n + epoch_days) + 1 - 1) with (year_index (n + epoch_days)) by lia. lia.
Qed.
Lemma gm_date_after n : 0 <= n -> date_after n (gm_date n).
Proof.
  revert n. apply natlike_ind.
  - assert (gm_date 0 = D 1970 1 1) as -> by (vm_compute; reflexivity). constructor.
  - intros n Hn IH. destruct (gm_date_spec n) as [V E]. destruct (next_day_exists _ V) as [b N].
    destruct (next_day_valid _ _ V N) as [Vb Eb]. destruct (gm_date_spec (Z.succ n)) as [V' E'].
    assert (gm_date (Z.succ n) = b) as -> by (apply daynum_inj; [assumption..|lia]).
    replace (Z.succ n) with (n + 1) by lia. econstructor; eassumption.
Qed.
Lemma date_after_gm n d : date_after n d -> d = gm_date n.
Proof.
  intros H. destruct (date_after_valid _ _ H) as (V & E & _). destruct (gm_date_spec n) as [V' E'].
  apply daynum_inj; [assumption..|lia].
Qed.
Lemma gmtime_eq t : gmtime t = mkTm (d_year (gm_date (t / 86400))) (d_month (gm_date (t / 86400))) (d_day (gm_date (t / 86400)))
    (t mod 86400 / 3600) (t mod 86400 / 60 mod 60) (t mod 86400 mod 60).
Proof. unfold gmtime, gm_date. destruct (split_month _ _ _). reflexivity. Qed.
Lemma timegm_eq x : timegm x = daynum (D (tm_year x) (tm_mon x) (tm_mday x)) * 86400 + tm_hour x * 3600 + tm_min x * 60 + tm_sec x.
Proof. unfold timegm, daynum; cbn [d_year d_month d_day]. lia. Qed.
Lemma timegm_gmtime t : timegm (gmtime t) = t.
Proof.
  rewrite timegm_eq, gmtime_eq. cbn [tm_year tm_mon tm_mday tm_hour tm_min tm_sec].
  destruct (gm_date_spec (t / 86400)) as [_ E]. destruct (gm_date (t / 86400)) as [y m d]. cbn [d_year d_month d_day]. rewrite E. lia.
Qed.

(* ---- text ---- *)
Lemma digit_eq c : digit c = if is_digit c then Some (digit_val c) else None.
Proof.
  unfold digit, is_digit, digit_val, nat_of_ascii. rewrite N_nat_Z.
  destruct ((48 <=? Z.of_N (N_of_ascii c)) && (Z.of_N (N_of_ascii c) <=? 57)) eqn:E;
  destruct ((48 <=? N_of_ascii c)%N && (N_of_ascii c <=? 57)%N) eqn:E'; try reflexivity; lia.
Qed.
Lemma digits_from_scan s : forall acc n rest, digits_from acc s = Some n -> starts_digit rest = false -> scan_digits (s ++ rest) acc = (n, rest).
Proof.
  induction s as [|c s IH]; intros acc n rest H R; cbn in *.
  - injection H as ->. destruct rest; cbn in *; [reflexivity|]. rewrite R. reflexivity.
  - rewrite digit_eq in H. destruct (is_digit c); [|discriminate]. replace (acc * 10 + digit_val c) with (10 * acc + digit_val c) by lia.
    apply IH; assumption.
Qed.
Lemma digits_from_bound s : forall acc n, 0 <= acc -> digits_from acc s = Some n ->
  acc * 10 ^ Z.of_nat (String.length s) <= n < (acc + 1) * 10 ^ Z.of_nat (String.length s).
Proof.
  induction s as [|c s IH]; intros acc n Ha H; cbn [digits_from String.length] in *.
  - injection H as ->. change (10 ^ Z.of_nat 0) with 1. lia.
  - rewrite digit_eq in H. destruct (is_digit c) eqn:D; [|discriminate]. pose proof (digit_val_range c D).
    apply IH in H; [|lia]. rewrite Nat2Z.inj_succ, Z.pow_succ_r by lia.
    pose proof (Z.pow_pos_nonneg 10 (Z.of_nat (String.length s)) ltac:(lia) ltac:(lia)). nia.
Qed.
Lemma print2_number n : 0 <= n < 100 -> number_w 2 (print2 n) n.
Proof.
  intros H. split; [reflexivity|]. split; [discriminate|]. unfold print2; cbn [digits_from].
  rewrite !digit_eq, !digit_char_digit, !digit_char_val by lia. f_equal. lia.
Qed.
Lemma digits_from_app a : forall acc b, digits_from acc (a ++ b) = match digits_from acc a with Some v => digits_from v b | None => None end.
Proof. induction a as [|c a IH]; intros acc b; cbn; [reflexivity|]. destruct (digit c); [apply IH|reflexivity]. Qed.
Lemma print4_number n : 0 <= n < 10000 -> number_w 4 (print4 n) n.
Proof.
  intros H. split; [reflexivity|]. split; [discriminate|]. unfold print4. rewrite digits_from_app.
  destruct (print2_number (n / 100) ltac:(lia)) as [_ [_ ->]].
  unfold print2; cbn [digits_from].
  rewrite !digit_eq, !digit_char_digit, !digit_char_val by lia. f_equal. lia.
Qed.
Lemma print_digits_4 n : 1000 <= n < 10000 -> print_Z n = print4 n.
Proof.
  intros H. unfold print_Z. replace (n <? 0) with false by lia. unfold print_nonneg.
  assert (L : 9 <= Z.log2 n). { apply Z.log2_le_pow2; [lia|]. change (2 ^ 9) with 512. lia. }
  replace (Z.to_nat (Z.log2 n)) with (S (S (S (S (Z.to_nat (Z.log2 n - 4)))))) by lia.
  cbn [print_digits].
  replace (n <? 10) with false by lia. replace (n / 10 <? 10) with false by lia.
  replace (n / 10 / 10 <? 10) with false by lia. replace (n / 10 / 10 / 10 <? 10) with true by lia.
  unfold print4, print2. cbn [String.append].
  replace (n / 10 / 10 / 10) with (n / 100 / 10) by lia. replace ((n / 10 / 10) mod 10) with ((n / 100) mod 10) by lia.
  replace ((n / 10) mod 10) with (n mod 100 / 10) by lia. replace (n mod 10) with (n mod 100 mod 10) by lia. reflexivity.
Qed.

(* reading back *)
Lemma read_digits_number n s : forall acc v hi rest, 0 <= acc -> String.length s = n -> digits_from acc s = Some v -> v <= hi ->
  read_digits n hi acc (s ++ rest) = (v, rest).
Proof.
  revert s. induction n as [|n IH]; intros s acc v hi rest Ha L D B; destruct s as [|c s]; try discriminate; cbn [read_digits String.append].
  - cbn in D. congruence.
  - pose proof (digits_from_bound _ _ _ Ha D) as Bd. cbn [digits_from] in D. rewrite digit_eq in D. destruct (is_digit c) eqn:Dc; [|discriminate].
    pose proof (digit_val_range c Dc). injection L as L.
    assert (10 * acc <= v).
    { cbn [String.length] in Bd. rewrite Nat2Z.inj_succ, Z.pow_succ_r in Bd by lia.
      pose proof (Z.pow_pos_nonneg 10 (Z.of_nat (String.length s)) ltac:(lia) ltac:(lia)). nia. }
    replace (acc * 10 <=? hi) with true by lia. cbn [andb]. apply IH; try assumption; [lia|].
    rewrite <- D. f_equal. lia.
Qed.
Lemma get_number_number w s v lo hi rest : number_w w s v -> lo <= v <= hi ->
  get_number lo hi w (s ++ rest) = Some (v, rest).
Proof.
  intros (L & NE & D) B. unfold get_number.
  destruct s as [|c s]; [congruence|].
  assert (Dc : is_digit c = true). { cbn in D. rewrite digit_eq in D. destruct (is_digit c); [reflexivity|discriminate]. }
  assert (skip_space (String c s ++ rest) = (String c s ++ rest)%string) as ->.
  { cbn. rewrite (digit_not_space c Dc). reflexivity. }
  replace (starts_digit (String c s ++ rest)) with true by (cbn; congruence).
  rewrite (read_digits_number w (String c s) 0 v hi rest) by (try assumption; lia).
  replace ((lo <=? v) && (v <=? hi)) with true by lia. reflexivity.
Qed.

Theorem parse_iso_text t s : iso_text t s -> parse_iso s = Ok t.
Proof.
  intros (n & d & ys & ms & ds & h & hs & mi & mis & se & ses & Hd & -> & Hh & Hmi & Hse & Ny & Nm & Nd & Nh & Nmi & Ns & ->).
  destruct (date_after_valid n d Hd) as ([Vm Vd] & E & P). destruct d as [y m d0]; cbn [d_year d_month d_day] in *.
  pose proof (mlen_range y m Vm).
  assert (0 <= y < 10000).
  { destruct Ny as (L & _ & D). pose proof (digits_from_bound _ _ _ (Z.le_refl 0) D) as B. rewrite L in B. 
    change (Z.of_nat 4) with 4 in B. change (10 ^ 4) with 10000 in B. lia. }
  unfold parse_iso, strptime_iso.
  rewrite (get_number_number 4 ys y) by (assumption || lia). cbn [String.append get_char Ascii.eqb Bool.eqb].
  rewrite (get_number_number 2 ms m) by (assumption || lia). cbn [String.append get_char Ascii.eqb Bool.eqb].
  rewrite (get_number_number 2 ds d0) by (assumption || lia). cbn [String.append get_char Ascii.eqb Bool.eqb].
  rewrite (get_number_number 2 hs h) by (assumption || lia). cbn [String.append get_char Ascii.eqb Bool.eqb].
  rewrite (get_number_number 2 mis mi) by (assumption || lia). cbn [String.append get_char Ascii.eqb Bool.eqb].
  rewrite (get_number_number 2 ses se) by (assumption || lia). cbn [String.append get_char Ascii.eqb Bool.eqb].
  f_equal. rewrite timegm_eq. cbn [tm_year tm_mon tm_mday tm_hour tm_min tm_sec]. rewrite E. reflexivity.
Qed.

Lemma year_range t : 1 <= t <= last_time -> 1970 <= d_year (gm_date (t / 86400)) <= 9999.
Proof.
  intros H. unfold last_time in H. destruct (gm_date_spec (t / 86400)) as [[Vm Vd] E].
  destruct (gm_date (t / 86400)) as [y m d]; unfold daynum in E; cbn [d_year d_month d_day] in *.
  pose proof (dbm_in_year y m Vm) as B. unfold days_before_year, epoch_days in E. split.
  - assert (leap_year y = true \/ leap_year y = false) as [L|L] by (destruct (leap_year y); auto); rewrite L in B;
    unfold leap_year in L; destruct (Z.le_gt_cases 1970 y); [assumption| lia | assumption | lia].
  - destruct (Z.le_gt_cases y 9999); [assumption|]. lia.
Qed.
Lemma to_iso_text_eq t : 1 <= t <= last_time ->
  to_iso t = Ok (print4 (tm_year (gmtime t)) ++ "-" ++ print2 (tm_mon (gmtime t)) ++ "-" ++ print2 (tm_mday (gmtime t)) ++ "T"
   ++ print2 (tm_hour (gmtime t)) ++ ":" ++ print2 (tm_min (gmtime t)) ++ ":" ++ print2 (tm_sec (gmtime t)) ++ "Z")%string.
Proof.
  intros H. unfold to_iso. replace (t =? 0) with false by lia. pose proof (year_range t H) as Y.
  unfold gmtime_fits, strftime_iso.
  assert (Ey : tm_year (gmtime t) = d_year (gm_date (t / 86400))) by (rewrite gmtime_eq; reflexivity).
  rewrite Ey. replace (in_i32b _) with true by (unfold in_i32b, int32_min, int32_max; lia).
  rewrite print_digits_4 by lia. 
  set (s := (_ ++ _)%string). assert (String.length s = 20%nat) as -> by reflexivity. reflexivity.
Qed.
Theorem to_iso_spec t : 1 <= t <= last_time -> exists s, to_iso t = Ok s /\ iso_text t s.
Proof.
  intros H. rewrite (to_iso_text_eq t H). eexists. split; [reflexivity|]. pose proof (year_range t H) as Y.
  destruct (gm_date_spec (t / 86400)) as [[Vm Vd] E]. pose proof (mlen_range (d_year (gm_date (t / 86400))) _ Vm).
  rewrite gmtime_eq. cbn [tm_year tm_mon tm_mday tm_hour tm_min tm_sec].
  unfold iso_text. exists (t / 86400), (gm_date (t / 86400)). do 3 eexists.
  exists (t mod 86400 / 3600). eexists. exists (t mod 86400 / 60 mod 60). eexists. exists (t mod 86400 mod 60). eexists.
  split; [apply gm_date_after; lia|]. split; [lia|]. do 3 (split; [lia|]).
  split; [apply print4_number; lia|]. split; [apply print2_number; lia|]. split; [apply print2_number; lia|].
  split; [apply print2_number; lia|]. split; [apply print2_number; lia|]. split; [apply print2_number; lia|]. reflexivity.
Qed.
Theorem iso_round_trip t : 1 <= t <= last_time -> exists s, to_iso t = Ok s /\ parse_iso s = Ok t.
Proof. intros H. destruct (to_iso_spec t H) as (s & E & T). exists s. split; [exact E|]. apply parse_iso_text. exact T. Qed.

(* order *)
Lemma compare_app a : forall a' b b', String.length a = String.length a' ->
  String.compare (a ++ b) (a' ++ b') = match String.compare a a' with Eq => String.compare b b' | c => c end.
Proof.
  induction a as [|c a IH]; intros [|c' a'] b b' L; try discriminate; [reflexivity|].
  cbn. destruct (Ascii.compare c c'); try reflexivity. apply IH. cbn in L. congruence.
Qed.
Lemma ascii_compare_N a b : Ascii.compare a b = (N_of_ascii a ?= N_of_ascii b)%N.
Proof. reflexivity. Qed.
Lemma digit_char_compare a b : 0 <= a < 10 -> 0 <= b < 10 -> Ascii.compare (digit_char a) (digit_char b) = (a ?= b).
Proof.
  intros Ha Hb. rewrite ascii_compare_N, !digit_char_code by assumption.
  destruct (Z.compare_spec a b); [subst; apply N.compare_refl | apply N.compare_lt_iff; lia | apply N.compare_gt_iff; lia].
Qed.
Lemma print2_compare a b : 0 <= a < 100 -> 0 <= b < 100 -> String.compare (print2 a) (print2 b) = (a ?= b).
Proof.
  intros Ha Hb. unfold print2. cbn [String.compare]. rewrite !digit_char_compare by lia.
  destruct (Z.compare_spec (a / 10) (b / 10)).
  - destruct (Z.compare_spec (a mod 10) (b mod 10)); symmetry; [apply Z.compare_eq_iff|apply Z.compare_lt_iff|apply Z.compare_gt_iff]; lia.
  - symmetry. apply Z.compare_lt_iff. lia.
  - symmetry. apply Z.compare_gt_iff. lia.
Qed.
Lemma print4_compare a b : 0 <= a < 10000 -> 0 <= b < 10000 -> String.compare (print4 a) (print4 b) = (a ?= b).
Proof.
  intros Ha Hb. unfold print4. rewrite compare_app by reflexivity. rewrite !print2_compare by lia.
  destruct (Z.compare_spec (a / 100) (b / 100)).
  - destruct (Z.compare_spec (a mod 100) (b mod 100)); symmetry; [apply Z.compare_eq_iff|apply Z.compare_lt_iff|apply Z.compare_gt_iff]; lia.
  - symmetry. apply Z.compare_lt_iff. lia.
  - symmetry. apply Z.compare_gt_iff. lia.
Qed.
Lemma compare_lit x b b' : String.compare (String x b) (String x b') = String.compare b b'.
Proof. cbn. rewrite ascii_compare_N, N.compare_refl. reflexivity. Qed.
Lemma Ok_inj {A} (a b : A) : Ok a = Ok b -> b = a.
Proof. congruence. Qed.
Theorem iso_order t t' s s' : 1 <= t <= last_time -> 1 <= t' <= last_time -> to_iso t = Ok s -> to_iso t' = Ok s' ->
  String.compare s s' = (t ?= t').
Proof.
  intros H H' E E'. rewrite to_iso_text_eq in E, E' by assumption. apply Ok_inj in E, E'. subst s s'.
  pose proof (year_range t H) as Y. pose proof (year_range t' H') as Y'.
  destruct (gm_date_spec (t / 86400)) as [V Dn]. destruct (gm_date_spec (t' / 86400)) as [V' Dn'].
  pose proof V as [Vm Vd]. pose proof V' as [Vm' Vd'].
  pose proof (mlen_range (d_year (gm_date (t / 86400))) _ Vm). pose proof (mlen_range (d_year (gm_date (t' / 86400))) _ Vm').
  rewrite !gmtime_eq. cbn [tm_year tm_mon tm_mday tm_hour tm_min tm_sec].
  assert (LT : t / 86400 < t' / 86400 -> date_lt (gm_date (t / 86400)) (gm_date (t' / 86400))).
  { intros L. apply daynum_lt_inv; [assumption..|lia]. }
  assert (GT : t' / 86400 < t / 86400 -> date_lt (gm_date (t' / 86400)) (gm_date (t / 86400))).
  { intros L. apply daynum_lt_inv; [assumption..|lia]. }
  assert (EQ : t / 86400 = t' / 86400 -> gm_date (t / 86400) = gm_date (t' / 86400)) by congruence.
  destruct (gm_date (t / 86400)) as [y m d], (gm_date (t' / 86400)) as [y' m' d']. cbn [d_year d_month d_day] in *.
  unfold date_lt in LT, GT; cbn [d_year d_month d_day] in LT, GT.
  rewrite (compare_app (print4 y)) by reflexivity. rewrite print4_compare by lia. cbn [String.append]. rewrite compare_lit.
  rewrite (compare_app (print2 m)) by reflexivity. rewrite print2_compare by lia. cbn [String.append]. rewrite compare_lit.
  rewrite (compare_app (print2 d)) by reflexivity. rewrite print2_compare by lia. cbn [String.append]. rewrite compare_lit.
  rewrite compare_app by reflexivity. rewrite print2_compare by lia. cbn [String.append]. rewrite compare_lit.
  rewrite compare_app by reflexivity. rewrite print2_compare by lia. cbn [String.append]. rewrite compare_lit.
  rewrite compare_app by reflexivity. rewrite print2_compare by lia. rewrite compare_lit. change (String.compare "" "") with Eq.
  destruct (Z.lt_total (t / 86400) (t' / 86400)) as [L|[L|L]].
  - specialize (LT L). replace (t ?= t') with Lt by (symmetry; apply Z.compare_lt_iff; lia).
    destruct (Z.compare_spec y y'); try lia; try reflexivity.
    destruct (Z.compare_spec m m'); try lia; try reflexivity.
    destruct (Z.compare_spec d d'); try lia; reflexivity.
  - specialize (EQ L). injection EQ as -> -> ->. rewrite !Z.compare_refl.
    destruct (Z.compare_spec (t mod 86400 / 3600) (t' mod 86400 / 3600)); 
      [|symmetry; apply Z.compare_lt_iff; lia|symmetry; apply Z.compare_gt_iff; lia].
    destruct (Z.compare_spec (t mod 86400 / 60 mod 60) (t' mod 86400 / 60 mod 60)); 
      [|symmetry; apply Z.compare_lt_iff; lia|symmetry; apply Z.compare_gt_iff; lia].
    destruct (Z.compare_spec (t mod 86400 mod 60) (t' mod 86400 mod 60)); symmetry; 
      [apply Z.compare_eq_iff; lia|apply Z.compare_lt_iff; lia|apply Z.compare_gt_iff; lia].
  - specialize (GT L). replace (t ?= t') with Gt by (symmetry; apply Z.compare_gt_iff; lia).
    destruct (Z.compare_spec y y'); try lia; try reflexivity.
    destruct (Z.compare_spec m m'); try lia; try reflexivity.
    destruct (Z.compare_spec d d'); try lia; reflexivity.
Qed.
