(** Proofs about the progress display. *)
From Verif Require Import Base.Prelude Base.Decimal Model.Osm Model.Handler Model.Convert Model.Progress
  Spec.OsmSpec Spec.HandlerSpec Spec.ProgressSpec Proofs.OsmProofs Proofs.HandlerProofs Proofs.ProgressFloat.
Local Open Scope string_scope.
Local Open Scope Z_scope.

Lemma sapp_assoc a b c : ((a ++ b) ++ c = a ++ (b ++ c))%string.
Proof. induction a as [|x a IH]; [reflexivity|]. cbn [String.append]. f_equal. exact IH. Qed.
Lemma sapp_nil a : (a ++ "" = a)%string.
Proof. induction a as [|x a IH]; [reflexivity|]. cbn [String.append]. f_equal. exact IH. Qed.
Lemma joined_app l m : joined (l ++ m) = (joined l ++ joined m)%string.
Proof. unfold joined. induction l as [|x l IH]; [reflexivity|]. cbn [app fold_right]. rewrite IH, sapp_assoc. reflexivity. Qed.

(* ---- counting ---- *)
Lemma count_of_nonneg t os : 0 <= count_of t os.
Proof. unfold count_of. lia. Qed.
Lemma count_of_le t os : count_of t os <= Z.of_nat (List.length os).
Proof. unfold count_of. induction os as [|o os IH]; cbn [filter List.length]; [lia|]. destruct (otype_eqb _ _); cbn [List.length]; lia. Qed.
Lemma count_of_app t a b : count_of t (a ++ b) = count_of t a + count_of t b.
Proof. unfold count_of. rewrite filter_app, app_length. lia. Qed.
Lemma count_of_one t o : count_of t [o] = if otype_eqb (obj_type o) t then 1 else 0.
Proof. unfold count_of. cbn [filter]. destruct (otype_eqb _ _); reflexivity. Qed.
Lemma counts_zero os : count_of NODE os = 0 -> count_of WAY os = 0 -> count_of RELATION os = 0 -> os = [].
Proof.
  destruct os as [|o os]; [reflexivity|]. change (o :: os) with ([o] ++ os)%list. rewrite !count_of_app, !count_of_one.
  pose proof (count_of_nonneg NODE os). pose proof (count_of_nonneg WAY os). pose proof (count_of_nonneg RELATION os).
  destruct o; cbn [obj_type otype_eqb]; lia.
Qed.
Lemma beginnings_snoc os o : beginnings (os ++ [o]) = (beginnings os ++ [os ++ [o]])%list.
Proof.
  unfold beginnings. rewrite app_length. cbn [List.length]. rewrite seq_app, map_app. cbn [seq map].
  f_equal.
  - apply map_ext_in. intros k K. apply in_seq in K. rewrite firstn_app. replace (k - List.length os)%nat with O by lia. cbn [firstn].
    rewrite app_nil_r. reflexivity.
  - f_equal. rewrite firstn_all2; [reflexivity|]. rewrite app_length. cbn [List.length]. lia.
Qed.
Lemma updates_snoc step os o : updates step (os ++ [o]) = (updates step os ++ (if due step (os ++ [o]) then [os ++ [o]] else []))%list.
Proof. unfold updates. rewrite beginnings_snoc, filter_app. cbn [filter]. reflexivity. Qed.
Lemma due_snoc step os o : due step (os ++ [o]) = (count_of (obj_type o) (os ++ [o]) mod step =? 0).
Proof. unfold due. rewrite rev_app_distr. reflexivity. Qed.

Lemma div_succ a n : 0 < n -> 0 <= a -> (a + 1) / n = a / n + if (a + 1) mod n =? 0 then 1 else 0.
Proof.
  intros Hn Ha. pose proof (Z.div_mod a n ltac:(lia)) as E. pose proof (Z.mod_pos_bound a n Hn) as B.
  pose proof (Z.div_mod (a + 1) n ltac:(lia)) as E'. pose proof (Z.mod_pos_bound (a + 1) n Hn) as B'.
  destruct (Z.eqb_spec ((a + 1) mod n) 0); nia.
Qed.

(* ---- the state ---- *)
Section Run.
  Variable clock : nat -> timeval.
  Variable step : Z.
  Hypothesis Hstep : 0 < step < 2147483648.
  Hypothesis Hclock : forall n, 0 < tv_sec (clock n).

  Definition counted (os : list object) (s : pstate) : Prop :=
    p_nodes s = count_of NODE os /\ p_ways s = count_of WAY os /\ p_rels s = count_of RELATION os.
  (** the first readings, by type *)
  Definition timed (os : list object) (s : pstate) : Prop := exists ix : otype -> nat,
    (forall t, object_type t -> if count_of t os =? 0 then p_first t s = mkTV 0 0
       else p_first t s = clock (ix t) /\ 1 + count_of t os / step <= Z.of_nat (p_reads s) - Z.of_nat (ix t)) /\
    (forall t u, object_type t -> object_type u -> by_type os -> count_of t os <> 0 -> count_of u os <> 0 -> (rank t < rank u)%nat ->
       count_of t os <= step * (Z.of_nat (ix u) - Z.of_nat (ix t))) /\
    (p_reads s <= 1 + 2 * List.length os)%nat.
  Definition drawn (os : list object) (s : pstate) : Prop := exists frames,
    p_out s = (hide_cursor ++ joined frames)%string /\ Forall2 (shows clock) ([] :: updates step os) frames.

  Lemma usec_micros a b : usec_between a b = if (int64_min <=? micros a - micros b) && (micros a - micros b <=? int64_max) then Ok (micros a - micros b) else UB.
  Proof.
    unfold usec_between, micros. replace ((tv_sec a - tv_sec b) * 1000000 + (tv_usec a - tv_usec b)) with
      (tv_sec a * 1000000 + tv_usec a - (tv_sec b * 1000000 + tv_usec b)) by ring. reflexivity.
  Qed.
  Lemma per_second_right c a b k : 0 < c < 18446744073709551616 -> per_second c a b = Ok k -> 0 < micros a - micros b ->
    speed_of k c (micros a - micros b).
  Proof.
    intros Hc E D. unfold per_second in E. rewrite usec_micros in E. unfold int64_min, int64_max in E.
    destruct (_ && _) eqn:B; [|discriminate E]. cbn [obind] in E. apply andb_prop in B as [B1 B2]. apply Z.leb_le in B1, B2.
    apply speed32_right; [lia|lia|exact E].
  Qed.
  Lemma per_second_defined c a b : 0 < c < 18446744073709551616 -> micros a <> micros b -> Z.abs (micros a - micros b) < 9223372036854775808 ->
    c <= 2000 * Z.abs (micros a - micros b) -> exists k, per_second c a b = Ok k.
  Proof.
    intros Hc N L M. unfold per_second. rewrite usec_micros. unfold int64_min, int64_max.
    rewrite (proj2 (Z.leb_le _ _)), (proj2 (Z.leb_le _ _)) by lia. cbn [andb obind].
    apply speed32_defined; lia.
  Qed.

  Lemma counts_out_text os s : counted os s -> counts_out s = counts_text os.
  Proof.
    intros (N & W & R). unfold counts_out, counts_text. rewrite N, W, R.
    pose proof (count_of_nonneg WAY os) as HW. pose proof (count_of_nonneg RELATION os) as HR.
    destruct (Z.gtb_spec (count_of WAY os) 0), (Z.gtb_spec (count_of RELATION os) 0),
      (Z.eqb_spec (count_of WAY os) 0), (Z.eqb_spec (count_of RELATION os) 0); try lia; cbn [orb andb];
      rewrite ?sapp_nil, ?sapp_assoc; reflexivity.
  Qed.
  Lemma type_cases t : object_type t -> t = NODE \/ t = WAY \/ t = RELATION.
  Proof. exact (fun x => x). Qed.
  Lemma shown_object_type os : object_type (shown_type os).
  Proof. unfold shown_type, object_type. destruct (0 <? count_of RELATION os); [auto|]. destruct (0 <? count_of WAY os); auto. Qed.
  Lemma shown_positive os : os <> [] -> 0 < count_of (shown_type os) os.
  Proof.
    intros N. unfold shown_type. destruct (Z.ltb_spec 0 (count_of RELATION os)); [lia|]. destruct (Z.ltb_spec 0 (count_of WAY os)); [lia|].
    pose proof (count_of_nonneg NODE os). pose proof (count_of_nonneg WAY os). pose proof (count_of_nonneg RELATION os).
    destruct (Z.eq_dec (count_of NODE os) 0) as [E|E]; [|lia]. destruct N. apply counts_zero; lia.
  Qed.
  Lemma speed_out_text os s now : counted os s ->
    speed_out now s = match os with
      | [] => Ok ""%string
      | _ => let! k := per_second (count_of (shown_type os) os) now (p_first (shown_type os) s) in
             Ok (" (" ++ print_Z k ++ " " ++ type_text (shown_type os) ++ " per second)   ")%string
      end.
  Proof.
    intros (N & W & R). unfold speed_out. rewrite N, W, R.
    assert (E : os = [] -> count_of NODE os = 0 /\ count_of WAY os = 0 /\ count_of RELATION os = 0) by (intros ->; auto).
    pose proof (count_of_nonneg NODE os) as HN. pose proof (count_of_nonneg WAY os) as HW. pose proof (count_of_nonneg RELATION os) as HR.
    unfold shown_type. destruct os as [|o os].
    - destruct (E eq_refl) as (-> & -> & ->). reflexivity.
    - clear E. assert (P := shown_positive (o :: os) ltac:(discriminate)). unfold shown_type in P. rewrite !Z.gtb_ltb.
      destruct (Z.ltb_spec 0 (count_of RELATION (o :: os))); [cbn [p_first type_text]; destruct (per_second _ _ _); reflexivity|].
      destruct (Z.ltb_spec 0 (count_of WAY (o :: os))); [cbn [p_first type_text]; destruct (per_second _ _ _); reflexivity|].
      rewrite (proj2 (Z.ltb_lt _ _) P). cbn [p_first type_text]. destruct (per_second _ _ _); reflexivity.
  Qed.

  (** the clock runs fast enough for these objects *)
  Definition fit (os : list object) : Prop := exists n, running_clock clock step n /\ (1 + 2 * List.length os <= n)%nat /\ by_type os.
  Lemma by_type_app os os' : by_type (os ++ os') -> by_type os.
  Proof.
    unfold by_type. induction os as [|o os IH]; intros H; [constructor|]. cbn [app] in H. inversion H as [|? ? A B]; subst.
    constructor; [exact (IH A)|]. apply Forall_app in B. apply B.
  Qed.
  Lemma fit_app os os' : fit (os ++ os') -> fit os.
  Proof. intros (t & R & L & B). exists t. rewrite app_length in L. split; [exact R|]. split; [lia|]. exact (by_type_app _ _ B). Qed.
  Lemma micros_range m n : running_clock clock step n -> (m <= n)%nat -> 1000000000000000 <= micros (clock m) < 253402300801000000.
  Proof. intros [R _] L. specialize (R m L). unfold micros. lia. Qed.
  Lemma running_diff n i d : running_clock clock step n -> (i + d <= n)%nat -> step * Z.of_nat d <= 2000 * (micros (clock (i + d)) - micros (clock i)).
  Proof.
    intros R. induction d as [|d IH]; intros L.
    - rewrite Nat.add_0_r. lia.
    - specialize (IH ltac:(lia)). destruct R as [_ R]. specialize (R (i + d)%nat ltac:(lia)). rewrite Nat.add_succ_r. lia.
  Qed.
  Lemma running_ticks n d : running_clock clock step n -> (d <= n)%nat -> Z.of_nat d <= micros (clock d) - micros (clock O).
  Proof.
    intros R. induction d as [|d IH]; intros L; [lia|]. specialize (IH ltac:(lia)). destruct R as [_ R]. specialize (R d ltac:(lia)). lia.
  Qed.
  Lemma fit_between n c i j : running_clock clock step n -> (j <= n)%nat -> 0 < c <= step * (Z.of_nat j - Z.of_nat i) -> c <= Z.of_nat n -> exists k, per_second c (clock j) (clock i) = Ok k.
  Proof.
    intros R L Hc Hn. pose proof (running_ticks n n R ltac:(lia)). pose proof (micros_range O n R ltac:(lia)). pose proof (micros_range n n R ltac:(lia)). assert (i < j)%nat by nia. pose proof (running_diff n i (j - i) R ltac:(lia)) as D.
    replace (i + (j - i))%nat with j in D by lia. rewrite Nat2Z.inj_sub in D by lia.
    pose proof (micros_range i n R ltac:(lia)). pose proof (micros_range j n R ltac:(lia)).
    apply per_second_defined; lia.
  Qed.
  Lemma fit_zero n c j : running_clock clock step n -> (j <= n)%nat -> 0 < c <= Z.of_nat n -> exists k, per_second c (mkTV 0 0) (clock j) = Ok k.
  Proof.
    intros R L Hc. pose proof (micros_range j n R L). assert (M : micros (mkTV 0 0) = 0) by reflexivity.
    pose proof (running_ticks n n R ltac:(lia)) as D. pose proof (micros_range O n R ltac:(lia)). pose proof (micros_range n n R ltac:(lia)).
    apply per_second_defined; rewrite ?M; lia.
  Qed.
  Lemma count_quotient_due n q : 0 < n -> n mod step = 0 -> 1 + (n - 1) / step <= q -> n <= step * q.
  Proof.
    intros Hn D H. pose proof (div_succ (n - 1) step ltac:(lia) ltac:(lia)) as Q. replace (n - 1 + 1) with n in Q by ring. rewrite D in Q. cbn [Z.eqb] in Q.
    pose proof (Z.div_mod n step ltac:(lia)). nia.
  Qed.
  Lemma count_quotient n q : 0 <= n -> 1 + n / step <= q -> n <= step * q.
  Proof. intros Hn H. pose proof (Z.div_mod n step ltac:(lia)). pose proof (Z.mod_pos_bound n step ltac:(lia)). nia. Qed.

  (** how update_display ends *)
  Definition near (os : list object) (s : pstate) : Prop := exists ix : otype -> nat,
    (forall t, object_type t -> if count_of t os =? 0 then p_first t s = mkTV 0 0
       else p_first t s = clock (ix t) /\ count_of t os <= step * (Z.of_nat (p_reads s) - Z.of_nat (ix t))) /\
    (p_reads s <= 1 + 2 * List.length os)%nat.
  Lemma display' os s : counted os s -> near os s -> Z.of_nat (List.length os) < 18446744073709551616 ->
    (exists s', update_display clock true s = (s', Some HUB) /\ ~ fit os) \/
    exists f, update_display clock true s = (mkP (p_nodes s) (p_ways s) (p_rels s) (p_step s) (p_tty s) (p_first_node s) (p_first_way s) (p_first_rel s)
      (Datatypes.S (p_reads s)) (p_out s ++ f)%string, None) /\ shows clock os f.
  Proof.
    intros C (ix & T & TR) L. unfold update_display. rewrite (counts_out_text os s C). unfold p_now.
    cbn [p_print p_nodes p_ways p_rels p_step p_tty p_first_node p_first_way p_first_rel p_reads p_out].
    rewrite (speed_out_text os) by exact C. destruct os as [|o os].
    - right. exists (counts_text [] ++ String "013" "")%string. split; [|constructor; reflexivity].
      unfold p_print. cbn [p_nodes p_ways p_rels p_step p_tty p_first_node p_first_way p_first_rel p_reads p_out String.append]. rewrite sapp_assoc. reflexivity.
    - set (os' := o :: os) in *. assert (Ne : os' <> []) by discriminate.
      pose proof (shown_positive os' Ne) as P. specialize (T _ (shown_object_type os')).
      destruct (Z.eqb_spec (count_of (shown_type os') os') 0) as [Z0|_]; [lia|]. destruct T as [T1 T2].
      assert (PF : forall x y, p_first (shown_type os') (mkP (p_nodes s) (p_ways s) (p_rels s) (p_step s) (p_tty s) (p_first_node s) (p_first_way s) (p_first_rel s) x y) = p_first (shown_type os') s).
      { intros x y. destruct (shown_type os'); reflexivity. }
      rewrite PF, T1. destruct (per_second _ _ _) as [k| | |] eqn:E; cbn [obind]; try (left; eexists; split; [reflexivity|]; intros Ft;
        destruct Ft as (n & Rn & Ln & _); destruct (fit_between n (count_of (shown_type os') os') (ix (shown_type os')) (p_reads s) Rn ltac:(lia)) as [k X];
        [split; [exact P|exact T2]|pose proof (count_of_le (shown_type os') os'); lia|congruence]).
      right. eexists. split.
      + unfold p_print. cbn [p_nodes p_ways p_rels p_step p_tty p_first_node p_first_way p_first_rel p_reads p_out]. rewrite sapp_assoc. reflexivity.
      + rewrite !sapp_assoc. apply shows_speed with (i := ix (shown_type os')) (j := p_reads s); [exact Ne|nia|].
        intros D. apply per_second_right; [|exact E|exact D]. pose proof (count_of_le (shown_type os') os'). lia.
  Qed.

  Record good (os : list object) (s : pstate) : Prop := mkGood {
    g_counted : counted os s; g_step : p_step s = step; g_tty : p_tty s = true; g_timed : timed os s; g_drawn : drawn os s }.

  Lemma init_good : (exists s', p_init clock (progress_new step true) = (s', Some HUB) /\ ~ fit []) \/
    exists s', p_init clock (progress_new step true) = (s', None) /\ good [] s'.
  Proof.
    unfold p_init. cbn [progress_new p_tty].
    destruct (display' [] (p_print hide_cursor (progress_new step true))) as [[s' E]|(f & E & F)].
    - repeat split.
    - exists (fun _ => O). split; [|cbn; lia].
      intros t [->|[->| ->]]; reflexivity.
    - cbn. lia.
    - left. exists s'. exact E.
    - right. eexists. split; [exact E|]. split; try reflexivity.
      + repeat split.
      + exists (fun _ => O). split; [|split; [intros t u _ _ _ X; destruct (X eq_refl)|cbn; lia]].
        intros t [->|[->| ->]]; reflexivity.
      + exists [f]. split; [|constructor; [exact F|constructor]].
        cbn [p_print p_out progress_new joined fold_right]. rewrite sapp_nil. reflexivity.
  Qed.

  Lemma obj_type_object o : object_type (obj_type o).
  Proof. unfold object_type. destruct o; cbn; auto. Qed.

  (** the object is counted and its time is taken *)
  Definition first_read (o : object) (s : pstate) : pstate :=
    if tv_sec (p_first (obj_type o) s) =? 0 then let (now, s') := p_now clock s in p_set_first (obj_type o) now s' else s.
  (** what is known of the times before the display is renewed *)
  Definition timed' (os : list object) (o : object) (s : pstate) : Prop := exists ix : otype -> nat,
    (forall t, object_type t -> if count_of t (os ++ [o]) =? 0 then p_first t s = mkTV 0 0
       else p_first t s = clock (ix t) /\
         1 + (count_of t (os ++ [o]) - if otype_eqb t (obj_type o) then 1 else 0) / step <= Z.of_nat (p_reads s) - Z.of_nat (ix t)) /\
    (forall t u, object_type t -> object_type u -> by_type (os ++ [o]) -> count_of t (os ++ [o]) <> 0 -> count_of u (os ++ [o]) <> 0 -> (rank t < rank u)%nat ->
       count_of t (os ++ [o]) <= step * (Z.of_nat (ix u) - Z.of_nat (ix t))) /\
    (p_reads s <= 2 + 2 * List.length os)%nat.
  Lemma by_type_last os o t : by_type (os ++ [o]) -> object_type t -> count_of t os <> 0 -> (rank t <= rank (obj_type o))%nat.
  Proof.
    unfold by_type. induction os as [|x os IH]; intros H Ht C; [destruct C; reflexivity|]. cbn [app] in H. inversion H as [|? ? A B]; subst.
    change (x :: os) with ([x] ++ os)%list in C. rewrite count_of_app, count_of_one in C. destruct (otype_eqb (obj_type x) t) eqn:E.
    - apply otype_eqb_spec in E. subst t. apply Forall_app in B as [_ B]. inversion B; assumption.
    - apply IH; auto.
  Qed.
  Lemma count_object os s o : Z.of_nat (List.length os) + 1 < 18446744073709551616 -> good os s ->
    counted (os ++ [o]) (p_increment (obj_type o) (first_read o s)) /\ p_step (p_increment (obj_type o) (first_read o s)) = step /\
    p_tty (p_increment (obj_type o) (first_read o s)) = true /\
    timed' os o (p_increment (obj_type o) (first_read o s)) /\
    p_out (p_increment (obj_type o) (first_read o s)) = p_out s /\
    p_count (obj_type o) (p_increment (obj_type o) (first_read o s)) = count_of (obj_type o) (os ++ [o]).
  Proof.
    intros L [(C1 & C2 & C3) St Ty (ix & T & TD & TR) Dr].
    pose proof (count_of_le NODE os). pose proof (count_of_le WAY os). pose proof (count_of_le RELATION os).
    pose proof (count_of_nonneg NODE os). pose proof (count_of_nonneg WAY os). pose proof (count_of_nonneg RELATION os).
    assert (U : forall n, 0 <= n <= Z.of_nat (List.length os) -> to_u64 (n + 1) = n + 1).
    { intros n Hn. unfold to_u64. apply Z.mod_small. change (2 ^ 64) with 18446744073709551616. lia. }
    assert (FR : p_nodes (first_read o s) = p_nodes s /\ p_ways (first_read o s) = p_ways s /\ p_rels (first_read o s) = p_rels s /\
      p_step (first_read o s) = p_step s /\ p_tty (first_read o s) = p_tty s /\ p_out (first_read o s) = p_out s).
    { unfold first_read. destruct (_ =? 0); cbn; repeat split; lia. }
    destruct FR as (F1 & F2 & F3 & F4 & F5 & F6).
    split; [|split; [|split; [|split; [|split]]]].
    - unfold counted, p_increment. cbn [p_nodes p_ways p_rels]. rewrite !count_of_app, !count_of_one, F1, F2, F3, C1, C2, C3.
      destruct o; cbn [obj_type otype_eqb]; rewrite ?U by lia; repeat split; lia.
    - cbn. congruence.
    - cbn. congruence.
    - assert (PI : forall t st, p_first t (p_increment (obj_type o) st) = p_first t st) by (intros t st; destruct t; reflexivity).
      assert (PR : p_reads (p_increment (obj_type o) (first_read o s)) = p_reads (first_read o s)) by reflexivity.
      pose proof (obj_type_object o) as OT. 
      assert (FF : exists i, p_first (obj_type o) (first_read o s) = clock i /\
        (forall t, t <> obj_type o -> p_first t (first_read o s) = p_first t s) /\
        ((count_of (obj_type o) os = 0 /\ i = p_reads s /\ p_reads (first_read o s) = Datatypes.S (p_reads s)) \/
         (count_of (obj_type o) os <> 0 /\ i = ix (obj_type o) /\ p_reads (first_read o s) = p_reads s /\
          1 + count_of (obj_type o) os / step <= Z.of_nat (p_reads s) - Z.of_nat (ix (obj_type o))))).
      { unfold first_read. specialize (T (obj_type o) OT). destruct (Z.eqb_spec (count_of (obj_type o) os) 0) as [Z0|Z0].
        - rewrite T. cbn [tv_sec Z.eqb]. exists (p_reads s). unfold p_now, p_set_first. cbn [p_nodes p_ways p_rels p_step p_tty p_first_node p_first_way p_first_rel p_reads p_out].
          split; [destruct OT as [->|[->| ->]]; reflexivity|]. split; [|left; auto].
          intros t Nt. destruct t, OT as [OT|[OT|OT]]; rewrite OT in *; try reflexivity; congruence.
        - destruct T as [T1 T2]. rewrite T1. destruct (Z.eqb_spec (tv_sec (clock (ix (obj_type o)))) 0) as [E|E]; [specialize (Hclock (ix (obj_type o))); lia|].
          exists (ix (obj_type o)). split; [exact T1|]. split; [auto|]. right. auto. }
      destruct FF as (i & FI & FO & FX). unfold timed'. set (t0 := obj_type o) in *.
      assert (C0 : count_of t0 (os ++ [o]) = count_of t0 os + 1) by (rewrite count_of_app, count_of_one; fold t0; rewrite otype_eqb_refl; reflexivity).
      assert (CO : forall t, t <> t0 -> count_of t (os ++ [o]) = count_of t os).
      { intros t Nt. rewrite count_of_app, count_of_one. fold t0. replace (otype_eqb t0 t) with false; [lia|].
        destruct (otype_eqb t0 t) eqn:B'; [|reflexivity]. apply otype_eqb_spec in B'. congruence. }
      pose proof (count_of_nonneg t0 os) as P0.
      exists (fun t => if otype_eqb t t0 then i else ix t). split; [|split].
      + intros t Ht. cbv beta. rewrite PI, PR. destruct (otype_eqb t t0) eqn:B.
        * apply otype_eqb_spec in B. subst t. rewrite C0.
          destruct (Z.eqb_spec (count_of t0 os + 1) 0) as [Z0|_]; [lia|]. split; [exact FI|]. replace (count_of t0 os + 1 - 1) with (count_of t0 os) by ring.
          destruct FX as [(Z0 & -> & ->)|(Z0 & -> & -> & FX)]; [rewrite Z0, Z.div_0_l by lia; lia|exact FX].
        * assert (Nt : t <> t0) by (intros X; apply otype_eqb_spec in X; congruence). rewrite (CO t Nt), Z.sub_0_r, FO by exact Nt.
          specialize (T t Ht). destruct (count_of t os =? 0); [exact T|]. destruct T as [T1 T2]. split; [exact T1|].
          destruct FX as [(_ & _ & ->)|(_ & _ & -> & _)]; lia.
      + intros t u Ht Hu Bt Ct Cu Rk. pose proof (by_type_app _ _ Bt) as Bo.
        assert (Nt : t <> t0).
        { intros ->. assert (Nu : u <> t0) by (intros ->; lia). rewrite (CO u Nu) in Cu. pose proof (by_type_last _ _ _ Bt Hu Cu) as R. fold t0 in R. lia. }
        rewrite (CO t Nt) in Ct |- *. replace (otype_eqb t t0) with false by (symmetry; destruct (otype_eqb t t0) eqn:B; [apply otype_eqb_spec in B; contradiction|reflexivity]).
        destruct (otype_eqb u t0) eqn:B.
        * apply otype_eqb_spec in B. subst u. destruct FX as [(Z0 & -> & _)|(Z0 & -> & _ & _)]; [|exact (TD t t0 Ht Hu Bo Ct Z0 Rk)].
          specialize (T t Ht). destruct (Z.eqb_spec (count_of t os) 0) as [X|_]; [contradiction|]. apply count_quotient; [apply count_of_nonneg|apply T].
        * assert (Nu : u <> t0) by (intros X; apply otype_eqb_spec in X; congruence). rewrite (CO u Nu) in Cu. exact (TD t u Ht Hu Bo Ct Cu Rk).
      + rewrite PR. destruct FX as [(_ & _ & ->)|(_ & _ & -> & _)]; lia.
    - cbn. exact F6.
    - unfold p_count, p_increment. cbn [p_nodes p_ways p_rels]. rewrite count_of_app, count_of_one, otype_eqb_refl, F1, F2, F3, C1, C2, C3.
      destruct o; cbn [obj_type]; apply U; lia.
  Qed.

  Lemma object_good os s o : Z.of_nat (List.length os) + 1 < 18446744073709551616 -> good os s ->
    (exists s', p_object clock o s = (s', Some HUB) /\ ~ fit (os ++ [o])) \/ exists s', p_object clock o s = (s', None) /\ good (os ++ [o]) s'.
  Proof.
    intros L G. pose proof G as [_ _ _ _ (fr & O & F)].
    destruct (count_object os s o L G) as (C & St & Ty & T & Out & Ct). unfold p_object. fold (first_read o s).
    set (s1 := first_read o s) in *. assert (Ty1 : p_tty s1 = true) by exact Ty. rewrite Ty1.
    set (s2 := p_increment (obj_type o) s1) in *. unfold is_step. rewrite St, Ct.
    assert (U : to_u64 step = step) by (unfold to_u64; apply Z.mod_small; change (2 ^ 64) with 18446744073709551616; lia).
    rewrite U. destruct (Z.eqb_spec step 0) as [Z0|_]; [lia|]. rewrite <- due_snoc. destruct (due step (os ++ [o])) eqn:D.
    - destruct T as (ix & T & TD & TR).
      assert (DV : forall t, object_type t -> t <> obj_type o -> count_of t (os ++ [o]) - (if otype_eqb t (obj_type o) then 1 else 0) = count_of t (os ++ [o])).
      { intros t _ Nt. destruct (otype_eqb t (obj_type o)) eqn:B; [apply otype_eqb_spec in B; contradiction|lia]. }
      assert (T0 := T _ (obj_type_object o)). rewrite otype_eqb_refl in T0.
      assert (C0 : 0 < count_of (obj_type o) (os ++ [o])) by (rewrite count_of_app, count_of_one, otype_eqb_refl; pose proof (count_of_nonneg (obj_type o) os); lia).
      destruct (Z.eqb_spec (count_of (obj_type o) (os ++ [o])) 0) as [X|_]; [lia|]. destruct T0 as [T1 T2].
      rewrite due_snoc in D. apply Z.eqb_eq in D. set (c := count_of (obj_type o) (os ++ [o])) in *.
      assert (Q : c / step = (c - 1) / step + 1).
      { pose proof (div_succ (c - 1) step ltac:(lia) ltac:(lia)) as Q. replace (c - 1 + 1) with c in Q by ring. rewrite D in Q. exact Q. }
      destruct (display' (os ++ [o]) s2 C) as [(s' & E & X)|(f & E & SF)].
      + exists ix. split; [|rewrite app_length; cbn [List.length]; lia].
        intros t Ht. specialize (T t Ht). destruct (Z.eqb_spec (count_of t (os ++ [o])) 0); [exact T|]. split; [apply T|].
        destruct (otype_eqb t (obj_type o)) eqn:B.
        * apply otype_eqb_spec in B. subst t. fold c. fold c in T. apply count_quotient_due; [lia|exact D|lia].
        * rewrite Z.sub_0_r in T. destruct T as [_ T]. apply count_quotient; [apply count_of_nonneg|exact T].
      + rewrite app_length; cbn [List.length]; lia.
      + left. exists s'. split; [exact E|exact X].
      + right. eexists. split; [exact E|]. split; cbn [p_step p_tty]; [exact C|exact St|exact Ty| |].
        * exists ix. split; [|split; [exact TD|cbn [p_reads]; rewrite app_length; cbn [List.length]; lia]]. intros t Ht. specialize (T t Ht). cbn [p_reads].
          replace (p_first t (mkP _ _ _ _ _ _ _ _ _ _)) with (p_first t s2) by (destruct t; reflexivity).
          destruct (Z.eqb_spec (count_of t (os ++ [o])) 0); [exact T|]. split; [apply T|].
          destruct (otype_eqb t (obj_type o)) eqn:B.
          -- apply otype_eqb_spec in B. subst t. fold c. lia.
          -- rewrite Z.sub_0_r in T. lia.
        * exists (fr ++ [f])%list. cbn [p_out]. split.
          -- rewrite Out, O, joined_app, <- !sapp_assoc. cbn [joined fold_right]. rewrite sapp_nil. reflexivity.
          -- rewrite updates_snoc, due_snoc. fold c. rewrite D. cbn [Z.eqb]. rewrite app_comm_cons. apply Forall2_app; [exact F|]. constructor; [exact SF|constructor].
    - right. exists s2. split; [reflexivity|]. split; [exact C|exact St|exact Ty| |].
      + destruct T as (ix & T & TD & TR). exists ix. split; [|split; [exact TD|rewrite app_length; cbn [List.length]; lia]].
        intros t Ht. specialize (T t Ht). destruct (Z.eqb_spec (count_of t (os ++ [o])) 0); [exact T|]. destruct T as [T1 T2]. split; [exact T1|].
        destruct (otype_eqb t (obj_type o)) eqn:B.
        * apply otype_eqb_spec in B. subst t. rewrite due_snoc in D. apply Z.eqb_neq in D. set (c := count_of (obj_type o) (os ++ [o])) in *.
          assert (C0 : 0 <= c) by apply count_of_nonneg.
          pose proof (div_succ (c - 1) step ltac:(lia) ltac:(lia)) as Q. replace (c - 1 + 1) with c in Q by ring.
          destruct (Z.eqb_spec (c mod step) 0); [contradiction|]. lia.
        * rewrite Z.sub_0_r in T2. exact T2.
      + exists fr. rewrite Out, updates_snoc, D, app_nil_r. auto.
  Qed.

  Lemma average_text nm n until first s : 0 <= n ->
    (exists s', p_average nm n until first s = (s', Some HUB) /\ 0 < n /\ forall k, per_second n until first <> Ok k) \/
    exists a, p_average nm n until first s = (p_print a s, None) /\ (if n =? 0 then a = ""%string else exists k, a = (print_Z k ++ nm)%string).
  Proof.
    intros H. unfold p_average. destruct (Z.gtb_spec n 0), (Z.eqb_spec n 0); try lia.
    - destruct (per_second n until first) as [k| | |]; [right; exists (print_Z k ++ nm)%string; eauto| | |]; left; eexists; (split; [reflexivity|split; [lia|discriminate]]).
    - right. exists ""%string. split; [|reflexivity]. unfold p_print. rewrite sapp_nil. destruct s; reflexivity.
  Qed.
  Lemma final_text os s : good os s ->
    (exists s', p_final clock s = (s', Some HUB) /\ ~ fit os) \/
    exists s' av, p_final clock s = (s', None) /\ averages os av /\
      p_out s' = (p_out s ++ counts_text os ++ "                                   " ++ String "013" (String "010" "  Average: ")
        ++ av ++ show_cursor ++ "per second" ++ String "010" "")%string.
  Proof.
    intros [C St Ty T _]. destruct (p_final clock s) as [sf hf] eqn:Q. unfold p_final in Q. rewrite Ty in Q. unfold update_display in Q.
    rewrite (counts_out_text os s C) in Q. destruct C as (C1 & C2 & C3).
    unfold p_bind at 1 in Q. unfold p_now in Q.
    match type of Q with context [p_average " Nodes " _ _ _ ?x] => set (s0 := x) in Q end.
    assert (O0 : p_out s0 = (p_out s ++ counts_text os ++ "                                   " ++ String "013" (String "010" "  Average: "))%string).
    { unfold s0, p_print. cbn [p_out]. rewrite !sapp_assoc. reflexivity. }
    assert (N0 : p_nodes s0 = count_of NODE os) by exact C1. assert (W0 : p_ways s0 = count_of WAY os) by exact C2.
    assert (R0 : p_rels s0 = count_of RELATION os) by exact C3.
    assert (FN : p_first_node s0 = p_first_node s) by reflexivity. assert (FW : p_first_way s0 = p_first_way s) by reflexivity.
    assert (FR : p_first_rel s0 = p_first_rel s) by reflexivity. clearbody s0.
    destruct T as (ix & T & TD & TR0).
    pose proof (T NODE (or_introl eq_refl)) as TN. pose proof (T WAY (or_intror (or_introl eq_refl))) as TW. pose proof (T RELATION (or_intror (or_intror eq_refl))) as TR.
    cbn [p_first] in TN, TW, TR. pose proof (count_of_le NODE os) as LN. pose proof (count_of_le WAY os) as LW. pose proof (count_of_le RELATION os) as LR.
    match type of Q with context [p_average " Nodes " _ ?u ?f s0] => destruct (average_text " Nodes " (p_nodes s0) u f s0) as [(s' & E & NP & NE)|(a & E & A)] end;
      [rewrite N0; apply count_of_nonneg|rewrite E in Q; cbn [p_bind] in Q; injection Q as <- <-; left; eexists; (split; [reflexivity|])|].
    { intros (n & Rn & Ln & Bn). rewrite N0 in NP, NE. rewrite FW, FN in NE. destruct (Z.eqb_spec (count_of NODE os) 0) as [|ZN]; [lia|]. destruct TN as [TN1 TN]. rewrite TN1 in NE.
      pose proof (Z.div_pos (count_of NODE os) step ltac:(lia) ltac:(lia)).
      destruct (Z.eqb_spec (count_of WAY os) 0) as [ZW|ZW].
      - rewrite TW in NE. destruct (fit_zero n (count_of NODE os) (ix NODE) Rn ltac:(lia) ltac:(lia)) as [k K]. exact (NE k K).
      - destruct TW as [TW' TW2]. rewrite TW' in NE. pose proof (Z.div_pos (count_of WAY os) step ltac:(pose proof (count_of_nonneg WAY os); lia) ltac:(lia)).
        destruct (fit_between n (count_of NODE os) (ix NODE) (ix WAY) Rn ltac:(lia)) as [k K]; [|lia|exact (NE k K)].
        split; [lia|]. apply TD; [left; reflexivity|right; left; reflexivity|exact Bn|assumption|assumption|cbn; lia]. }
    rewrite E in Q. cbn [p_bind] in Q.
    match type of Q with context [p_average " Ways " _ ?u ?f ?x] => destruct (average_text " Ways " (p_ways s0) u f x) as [(s' & E2 & NP & NE)|(b & E2 & B)];
      [rewrite W0; apply count_of_nonneg|change (p_ways x) with (p_ways s0) in Q; rewrite E2 in Q; cbn [p_bind] in Q; injection Q as <- <-; left; eexists; (split; [reflexivity|])|change (p_ways x) with (p_ways s0) in Q] end.
    { intros (n & Rn & Ln & Bn). rewrite W0 in NP, NE. cbn [p_print p_first_rel p_first_way] in NE. rewrite FW, FR in NE. destruct (Z.eqb_spec (count_of WAY os) 0) as [|ZW]; [lia|]. destruct TW as [TW1 TW]. rewrite TW1 in NE.
      pose proof (Z.div_pos (count_of WAY os) step ltac:(lia) ltac:(lia)).
      destruct (Z.eqb_spec (count_of RELATION os) 0) as [ZR|ZR].
      - rewrite TR in NE. destruct (fit_zero n (count_of WAY os) (ix WAY) Rn ltac:(lia) ltac:(lia)) as [k K]. exact (NE k K).
      - destruct TR as [TR' TR2]. rewrite TR' in NE. pose proof (Z.div_pos (count_of RELATION os) step ltac:(pose proof (count_of_nonneg RELATION os); lia) ltac:(lia)).
        destruct (fit_between n (count_of WAY os) (ix WAY) (ix RELATION) Rn ltac:(lia)) as [k K]; [|lia|exact (NE k K)].
        split; [lia|]. apply TD; [right; left; reflexivity|right; right; reflexivity|exact Bn|assumption|assumption|cbn; lia]. }
    rewrite E2 in Q. cbn [p_bind] in Q.
    match type of Q with context [p_average " Relations " _ ?u ?f ?x] => destruct (average_text " Relations " (p_rels s0) u f x) as [(s' & E3 & NP & NE)|(c & E3 & D)];
      [rewrite R0; apply count_of_nonneg|change (p_rels x) with (p_rels s0) in Q; rewrite E3 in Q; cbn [p_bind] in Q; injection Q as <- <-; left; eexists; (split; [reflexivity|])|change (p_rels x) with (p_rels s0) in Q] end.
    { intros (n & Rn & Ln & Bn). rewrite R0 in NP, NE. cbn [p_print p_first_rel p_first_way p_reads] in NE. rewrite FR in NE. destruct (Z.eqb_spec (count_of RELATION os) 0) as [|ZR]; [lia|]. destruct TR as [TR1 TR].
      rewrite TR1 in NE. destruct (fit_between n (count_of RELATION os) (ix RELATION) (p_reads s) Rn ltac:(lia)) as [k K]; [|lia|exact (NE k K)].
      split; [lia|]. apply count_quotient; [lia|exact TR]. }
    rewrite E3 in Q. cbn [p_bind] in Q. injection Q as <- <-. right. eexists. exists (a ++ b ++ c)%string. split; [reflexivity|]. split.
    - rewrite N0 in A. rewrite W0 in B. rewrite R0 in D. exact (averages_are os a b c A B D).
    - unfold p_print. cbn [p_out]. rewrite O0, !sapp_assoc. reflexivity.
  Qed.

  (* ---- a whole file ---- *)
  Definition objects_in (cs : list callback) : list object := flat_map (fun c => match c with CObj o => [o] | _ => [] end) cs.
  Lemma feed_good cs : (forall c, In c cs -> c <> CInit /\ c <> CFinal) -> forall os s, good os s ->
    Z.of_nat (List.length (os ++ objects_in cs)) < 18446744073709551616 ->
    (exists m s', feed (progress clock) cs s = (m, s', Some HUB) /\ ~ fit (os ++ objects_in cs)) \/
    exists s', takes (progress clock) cs s s' /\ good (os ++ objects_in cs) s'.
  Proof.
    induction cs as [|c cs IH]; intros N os s G L.
    - right. exists s. rewrite app_nil_r. split; [reflexivity|exact G].
    - assert (Nc := N c (or_introl eq_refl)). assert (N' : forall x, In x cs -> x <> CInit /\ x <> CFinal) by (intros x X; apply N; right; exact X).
      specialize (IH N').
      assert (Skip : progress clock c s = (s, None) -> objects_in (c :: cs) = objects_in cs ->
        (exists m s', feed (progress clock) (c :: cs) s = (m, s', Some HUB) /\ ~ fit (os ++ objects_in (c :: cs))) \/
        (exists s', takes (progress clock) (c :: cs) s s' /\ good (os ++ objects_in (c :: cs)) s')).
      { intros E EO. rewrite EO in L |- *. destruct (IH os s G L) as [(m & s' & F & X)|(s' & T & X)].
        - left. cbn [feed]. rewrite E, F. eauto.
        - right. exists s'. split; [|exact X]. unfold takes in *. cbn [feed]. rewrite E, T. reflexivity. }
      destruct c as [|t|o|t|a|]; try (destruct Nc; congruence); try (apply Skip; reflexivity).
      assert (EO : (os ++ objects_in (CObj o :: cs) = (os ++ [o]) ++ objects_in cs)%list) by (rewrite <- app_assoc; reflexivity).
      rewrite EO in L |- *. clear Skip.
      assert (L1 : Z.of_nat (List.length os) + 1 < 18446744073709551616) by (rewrite !app_length in L; cbn [List.length] in L; lia).
      destruct (object_good os s o L1 G) as [(s' & E & X)|(s1 & E & G1)].
      + left. cbn [feed progress]. rewrite E. do 2 eexists. split; [reflexivity|]. intros Ft. apply X. exact (fit_app _ _ Ft).
      + destruct (IH _ _ G1 L) as [(m & s' & F & X)|(s' & T & X)].
        * left. cbn [feed progress]. rewrite E, F. eauto.
        * right. exists s'. split; [|exact X]. unfold takes in *. cbn [feed progress]. rewrite E, T. reflexivity.
  Qed.
End Run.

Lemma objects_brackets rs : objects_in (flat_map bracket rs) = flat_map snd rs.
Proof.
  induction rs as [|[t os] rs IH]; [reflexivity|]. cbn [flat_map snd]. rewrite <- IH. unfold objects_in at 1. rewrite flat_map_app. fold (objects_in (flat_map bracket rs)).
  f_equal. unfold bracket. cbn [fst snd flat_map app]. rewrite flat_map_app. cbn [flat_map]. rewrite app_nil_r.
  induction os as [|o os IHo]; [reflexivity|]. cbn [map flat_map app]. rewrite IHo. reflexivity.
Qed.

(** The display of a whole file. *)
Lemma progress_file clock step gs : (forall n, 0 < tv_sec (clock n)) -> 0 < step < 2147483648 -> gs <> [] -> (forall g, In g gs -> well_typed g) ->
  Z.of_nat (List.length (flat_map snd gs)) < 18446744073709551616 ->
  let os := flat_map snd gs in
  (exists s, input_read (progress clock) (gs, Ok tt) (progress_new step true) = (s, Some HUB, false) /\ ~ fit clock step os) \/
  exists s frames av, input_read (progress clock) (gs, Ok tt) (progress_new step true) = (s, None, true) /\
    Forall2 (shows clock) ([] :: updates step os) frames /\ averages os av /\
    p_out s = (hide_cursor ++ joined frames ++ counts_text os ++ "                                   " ++ String "013" (String "010" "  Average: ")
        ++ av ++ show_cursor ++ "per second" ++ String "010" "")%string.
Proof.
  intros Hc Hs N W L os. pose proof (parse_refines _ (progress clock) gs (progress_new step true) N W) as Q.
  assert (R : forall x, observe (parse (progress clock) gs None (progress_new step true)) = x ->
    input_read (progress clock) (gs, Ok tt) (progress_new step true) = (snd (fst x), snd x, match snd x with None => true | Some _ => false end)).
  { intros x <-. unfold input_read, observe. cbn [fst snd]. destruct (parse _ gs None _) as [y h]. reflexivity. }
  apply R in Q. clear R. rewrite Q. clear Q. unfold protocol. cbn [feed progress].
  assert (NI : forall c, In c (flat_map bracket (join gs)) -> c <> CInit /\ c <> CFinal).
  { intros c C. destruct (bracket_no_init (join gs)) as [A B]. split; intros ->; contradiction. }
  assert (EO : objects_in (flat_map bracket (join gs)) = os) by (rewrite objects_brackets; apply join_objects).
  destruct (init_good clock step Hs Hc) as [(s' & E & X)|(s1 & E & G)].
  - left. rewrite E. cbn [finish fst snd]. exists s'. split; [reflexivity|]. intros F. apply X. exact (fit_app clock step Hc [] os F).
  - rewrite E. destruct (feed_good clock step Hs Hc _ NI [] s1 G) as [(m & s' & F & X)|(s2 & T & G2)].
    + rewrite EO. exact L.
    + rewrite EO in X. left. rewrite F. cbn [finish fst snd]. exists s'. split; [reflexivity|exact X].
    + rewrite EO in G2. unfold takes in T. rewrite T. cbn [finish]. destruct (final_text clock step Hs Hc os s2 G2) as [(s' & E3 & X)|(s3 & av & E3 & A & O)].
      * left. cbn [progress]. rewrite E3. cbn [fst snd]. exists s'. auto.
      * right. cbn [progress]. rewrite E3. cbn [fst snd]. destruct (g_drawn clock step os s2 G2) as (fr & O2 & F2).
        exists s3, fr, av. split; [reflexivity|]. split; [exact F2|]. split; [exact A|]. rewrite O, O2, !sapp_assoc. reflexivity.
Qed.


(** a handler none of whose callbacks fails *)
Section Quiet.
  Context {S : Type}.
  Variable h : callback -> S -> S * option halt.
  Variable P : S -> Prop.
  Hypothesis H : forall c s, P s -> P (fst (h c s)) /\ snd (h c s) = None.
  Definition still (x : rstate S * option halt) : Prop := P (r_handler (fst x)) /\ snd x = None.
  Lemma still_call c st : P (r_handler st) -> still (call h c st).
  Proof. intros X. unfold still, call. destruct (H c _ X) as [A B]. destruct (h c (r_handler st)) as [s' r]. auto. Qed.
  Lemma still_then x f : still x -> (forall st, P (r_handler st) -> still (f st)) -> still (andthen x f).
  Proof. destruct x as [st r]. intros [A B] F. cbn in A, B. subst r. apply F. exact A. Qed.
  Lemma still_switch t st : P (r_handler st) -> still (call_after_and_before h t st).
  Proof.
    intros X. unfold call_after_and_before. destruct (negb _); [|split; [exact X|reflexivity]].
    apply still_then; [unfold call_after; destruct (r_last st); first [apply still_call; exact X|split; [exact X|reflexivity]]|].
    intros st1 X1. apply still_then; [unfold call_before; destruct t; first [apply still_call; exact X1|split; [exact X1|reflexivity]]|].
    intros st2 X2. split; [exact X2|reflexivity].
  Qed.
  Lemma still_objects os : forall st, P (r_handler st) -> still (call_objects h os st).
  Proof.
    induction os as [|o os IH]; intros st X; [split; [exact X|reflexivity]|]. cbn [call_objects]. apply still_then; [apply still_call; exact X|exact IH].
  Qed.
  Lemma still_groups gs : forall st, P (r_handler st) -> still (read_groups h gs st).
  Proof.
    induction gs as [|[t os] gs IH]; intros st X; [split; [exact X|reflexivity]|]. cbn [read_groups].
    apply still_then; [apply still_switch; exact X|]. intros st1 X1. apply still_then; [apply still_objects; exact X1|exact IH].
  Qed.
  Lemma still_read r s : P s -> P (fst (fst (input_read h r s))) /\
    snd (fst (input_read h r s)) = match snd r with Ok _ => None | Throw EStopReading => None | Throw e => Some (HExn e) | _ => Some HUB end.
  Proof.
    intros X. unfold input_read. destruct r as [gs e]. cbn [fst snd].
    assert (G : still (read_groups h gs (mkR UNKNOWN s []))) by (apply still_groups; exact X).
    destruct e as [u|e| |].
    - unfold parse. pose proof (still_then _ _ G (still_switch UNKNOWN)) as [A B].
      destruct (andthen (read_groups h gs _) (call_after_and_before h UNKNOWN)) as [st r]. cbn [fst snd] in A, B. subst r.
      destruct (still_call CFinal st A) as [C D]. destruct (call h CFinal st) as [st' r]. exact (conj C D).
    - unfold parse. destruct (read_groups h gs _) as [st r]. destruct G as [A B]. cbn [fst snd] in A, B. subst r. cbn [andthen].
      destruct e; try (exact (conj A eq_refl)). destruct (still_call CFinal st A) as [C D]. destruct (call h CFinal st) as [st' r]. exact (conj C D).
    - destruct (read_groups h gs _) as [st r]. destruct G as [A B]. cbn [fst snd] in A, B. subst r. cbn [andthen fst snd r_handler]. auto.
    - destruct (read_groups h gs _) as [st r]. destruct G as [A B]. cbn [fst snd] in A, B. subst r. cbn [andthen fst snd r_handler]. auto.
  Qed.
End Quiet.

(** nothing is printed if the output is not a terminal *)
Lemma no_terminal clock step r : let x := input_read (progress clock) r (progress_new step false) in p_out (fst (fst x)) = ""%string /\
  snd (fst x) = match snd r with Ok _ => None | Throw EStopReading => None | Throw e => Some (HExn e) | _ => Some HUB end.
Proof.
  intros x. destruct (still_read (progress clock) (fun s => p_tty s = false /\ p_out s = ""%string)) with (r := r) (s := progress_new step false) as [[_ A] B].
  - intros c s [T O]. destruct c as [|t|o|t|a|]; cbn [progress]; try (split; [split; [exact T|exact O]|reflexivity]; fail).
    + unfold p_init. rewrite T. auto.
    + unfold p_object. destruct (tv_sec _ =? 0).
      * unfold p_now. set (s1 := p_set_first _ _ _). assert (T1 : p_tty s1 = false) by exact T. rewrite T1. auto.
      * rewrite T. auto.
    + unfold p_final. rewrite T. auto.
  - split; reflexivity.
  - split; [exact A|exact B].
Qed.

Lemma progress_shows clock step gs s h b : (forall n, 0 < tv_sec (clock n)) -> 0 < step < 2147483648 -> gs <> [] -> (forall g, In g gs -> well_typed g) ->
  Z.of_nat (List.length (flat_map snd gs)) < 18446744073709551616 ->
  input_read (progress clock) (gs, Ok tt) (progress_new step true) = (s, h, b) -> h <> Some HUB ->
  h = None /\ exists frames av, Forall2 (shows clock) ([] :: updates step (flat_map snd gs)) frames /\ averages (flat_map snd gs) av /\
    p_out s = (hide_cursor ++ joined frames ++ counts_text (flat_map snd gs) ++ "                                   "
        ++ String "013" (String "010" "  Average: ") ++ av ++ show_cursor ++ "per second" ++ String "010" "")%string.
Proof.
  intros Hc Hs N W L E X. destruct (progress_file clock step gs Hc Hs N W L) as [(s' & E' & _)|(s' & fr & av & E' & F & A & O)]; rewrite E in E'; injection E' as -> -> ->.
  - destruct X; reflexivity.
  - split; [reflexivity|]. exists fr, av. auto.
Qed.
Lemma progress_defined clock step gs n : (forall n, 0 < tv_sec (clock n)) -> 0 < step < 2147483648 -> gs <> [] -> (forall g, In g gs -> well_typed g) ->
  by_type (flat_map snd gs) -> (1 + 2 * List.length (flat_map snd gs) <= n)%nat -> running_clock clock step n ->
  exists s, input_read (progress clock) (gs, Ok tt) (progress_new step true) = (s, None, true).
Proof.
  intros Hc Hs N W B L R. pose proof (running_ticks clock step Hs Hc n n R (le_n n)) as T.
  pose proof (micros_range clock step Hc O n R ltac:(lia)). pose proof (micros_range clock step Hc n n R (le_n n)).
  destruct (progress_file clock step gs Hc Hs N W ltac:(lia)) as [(s' & E' & X)|(s' & fr & av & E' & _)]; [|eauto].
  destruct X. exists n. auto.
Qed.
Lemma updates_number step os : 0 < step ->
  Z.of_nat (List.length (updates step os)) = count_of NODE os / step + count_of WAY os / step + count_of RELATION os / step.
Proof.
  intros H. induction os as [|o os IH] using rev_ind.
  - cbn. rewrite Z.div_0_l by lia. reflexivity.
  - rewrite updates_snoc, app_length, Nat2Z.inj_add, IH, due_snoc, !count_of_app, !count_of_one.
    pose proof (count_of_nonneg NODE os). pose proof (count_of_nonneg WAY os). pose proof (count_of_nonneg RELATION os).
    destruct o; cbn [obj_type otype_eqb]; rewrite ?Z.add_0_r, div_succ by assumption; destruct (_ =? 0); cbn [List.length]; lia.
Qed.
