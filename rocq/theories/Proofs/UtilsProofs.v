From Verif Require Import Base.Prelude Base.SMap Model.Utils Spec.UtilsSpec.

(* ---- delta ---- *)
Lemma delta_lossless_gen t ops : forall m ds,
  Forall (in_ity t) (values ops) -> run_delta t m ops = Ok ds -> decode t m ops ds = values ops.
Proof.
  induction ops as [|[v|] ops IH]; cbn [run_delta values decode]; intros m ds HF; [reflexivity| |].
  - inversion HF as [|? ? Hv HF']; subst. unfold delta_update.
    destruct (isub t v m) as [d| | |] eqn:E; cbn; try discriminate.
    destruct (run_delta t v ops) as [ds'| | |] eqn:E2; cbn; try discriminate.
    intros [= <-]. assert (W : wrap t (m + d) = v).
    { destruct t; cbn in *.
      - destruct (in_i64b (v - m)); [|discriminate]. injection E as <-. lia.
      - injection E as <-. unfold to_u32, in_u32 in *. lia. }
    rewrite W. f_equal. apply IH; assumption.
  - intros H. apply IH; [exact HF|exact H].
Qed.
Lemma delta_lossless t ops ds :
  Forall (in_ity t) (values ops) -> run_delta t delta_new ops = Ok ds -> decode t 0 ops ds = values ops.
Proof. apply delta_lossless_gen. Qed.
Lemma delta_defined_u32 ops : forall m, exists ds, run_delta U32 m ops = Ok ds.
Proof.
  induction ops as [|[v|] ops IH]; intros m; cbn.
  - eexists; reflexivity.
  - destruct (IH v) as [ds ->]. cbn. eexists; reflexivity.
  - apply IH.
Qed.
Lemma delta_defined_i64_gen ops : forall m,
  (no_overflow m ops -> exists ds, run_delta I64 m ops = Ok ds) /\
  (~ no_overflow m ops -> run_delta I64 m ops = UB).
Proof.
  induction ops as [|[v|] ops IH]; intros m; cbn [run_delta no_overflow].
  - split; [eexists; reflexivity|tauto].
  - unfold delta_update, isub. destruct (in_i64b (v - m)) eqn:E; cbn.
    + apply in_i64b_spec in E. destruct (IH v) as [H1 H2]. split.
      * intros [_ H]. destruct (H1 H) as [ds ->]. eexists; reflexivity.
      * intros H. rewrite H2; [reflexivity|tauto].
    + split; [|reflexivity]. intros [H _]. apply in_i64b_spec in H. congruence.
  - apply IH.
Qed.
Lemma delta_defined_i64 ops :
  (no_overflow 0 ops -> exists ds, run_delta I64 delta_new ops = Ok ds) /\
  (~ no_overflow 0 ops -> run_delta I64 delta_new ops = UB).
Proof. apply delta_defined_i64_gen. Qed.
Lemma no_overflow_half ops : forall m,
  - 4611686018427387904 <= m < 4611686018427387904 ->
  Forall (fun v => - 4611686018427387904 <= v < 4611686018427387904) (values ops) -> no_overflow m ops.
Proof.
  induction ops as [|[v|] ops IH]; cbn; intros m Hm HF; [exact I| |apply IH; [lia|exact HF]].
  inversion HF; subst. split; [unfold in_i64, int64_min, int64_max; lia|]. apply IH; assumption.
Qed.
Lemma delta_overflow_refuted : exists ops,
  Forall (in_ity I64) (values ops) /\ forall ds, run_delta I64 delta_new ops <> Ok ds.
Proof.
  exists [DUpdate 9223372036854775807; DUpdate (-2)]. split.
  - cbn [values]. constructor; [|constructor; [|constructor]]; cbn; unfold in_i64, int64_min, int64_max; lia.
  - intros ds H. vm_compute in H. discriminate H.
Qed.

(* ---- string table ---- *)
Definition interims (m : list (string * string_info)) : list Z := map (fun e => si_interim (snd e)) m.

Record st_inv (l : list string) (t : stringtable) : Prop := {
  inv_sorted : map_sorted (st_strings t);
  inv_keys : forall s, In s (keys (st_strings t)) <-> In s l;
  inv_size : st_size t = Z.of_nat (List.length (st_strings t));
  inv_range : forall s i, map_find s (st_strings t) = Some i -> 1 <= si_interim i <= st_size t;
  inv_inj : forall s s' i i', map_find s (st_strings t) = Some i -> map_find s' (st_strings t) = Some i' ->
     si_interim i = si_interim i' -> s = s';
  inv_count : forall s i, map_find s (st_strings t) = Some i ->
     si_count i = to_u16 (Z.of_nat (occurrences l s) - 1);
  inv_ids : st_id2id t = [] }.

Lemma st_new_inv : st_inv [] st_new.
Proof. constructor; cbn; try congruence; try tauto. constructor. Qed.

Lemma nodup_incl_length (m : list string) l : NoDup m -> (forall s, In s m -> In s l) ->
  (List.length m <= distinct_strings l)%nat.
Proof.
  intros ND H. unfold distinct_strings. apply NoDup_incl_length; [exact ND|].
  intros s Hs. apply nodup_In. auto.
Qed.

Lemma occ_app l s x : occurrences (l ++ [x]) s = (occurrences l s + (if string_dec x s then 1 else 0))%nat.
Proof. unfold occurrences. rewrite count_occ_app. cbn. destruct (string_dec x s); lia. Qed.

Lemma record_inv l s t : st_inv l t -> (Z.of_nat (distinct_strings (l ++ [s])) <= 65535) ->
  st_inv (l ++ [s]) (fst (record_string s t)) /\
  (exists i, map_find s (st_strings (fst (record_string s t))) = Some i /\ snd (record_string s t) = si_interim i) /\
  (forall s' i, map_find s' (st_strings t) = Some i ->
     exists i', map_find s' (st_strings (fst (record_string s t))) = Some i' /\ si_interim i' = si_interim i).
Proof.
  intros I HD. pose proof (inv_sorted _ _ I) as SO. pose proof (inv_size _ _ I) as SZ.
  unfold record_string. destruct (map_find s (st_strings t)) as [i|] eqn:F.
  - pose proof (inv_range _ _ I _ _ F) as R. destruct (Z.eqb_spec (si_interim i) 0); [lia|]. cbn [fst snd st_strings].
    assert (Hin : In s l).
    { apply (inv_keys _ _ I). apply map_find_in in F. apply (in_map fst) in F. exact F. }
    assert (Hk : In s (keys (st_strings t))) by (apply (inv_keys _ _ I); exact Hin).
    split; [|split].
    + constructor; cbn [st_strings st_size st_id2id].
      * apply map_put_sorted; exact SO.
      * intros x. rewrite map_put_old_keys by assumption. rewrite (inv_keys _ _ I). rewrite in_app_iff. cbn.
        split; [auto|]. intros [H|[<-|[]]]; auto.
      * rewrite SZ. f_equal.
        rewrite <- (map_length fst), <- (map_length fst (map_put _ _ _)).
        change (map fst (map_put s ?v ?m)) with (keys (map_put s v m)). rewrite map_put_old_keys by assumption. reflexivity.
      * intros x j Hx. destruct (string_dec x s) as [->|Nx].
        -- rewrite map_find_put_eq in Hx. injection Hx as <-. exact R.
        -- rewrite map_find_put_neq in Hx by exact Nx. eapply (inv_range _ _ I); exact Hx.
      * intros x y j k Hx Hy E.
        destruct (string_dec x s) as [->|Nx]; destruct (string_dec y s) as [->|Ny]; try reflexivity.
        -- rewrite map_find_put_eq in Hx. rewrite map_find_put_neq in Hy by exact Ny. injection Hx as <-. cbn in E.
           eapply (inv_inj _ _ I); eassumption.
        -- rewrite map_find_put_eq in Hy. rewrite map_find_put_neq in Hx by exact Nx. injection Hy as <-. cbn in E.
           eapply (inv_inj _ _ I); eassumption.
        -- rewrite map_find_put_neq in Hx by exact Nx. rewrite map_find_put_neq in Hy by exact Ny.
           eapply (inv_inj _ _ I); eassumption.
      * intros x j Hx. rewrite occ_app. destruct (string_dec s x) as [->|Nx].
        -- rewrite map_find_put_eq in Hx. injection Hx as <-. cbn [si_count].
           rewrite (inv_count _ _ I _ _ F). unfold to_u16.
           rewrite Z.add_mod_idemp_l by lia. f_equal. lia.
        -- rewrite map_find_put_neq in Hx by congruence. rewrite Nat.add_0_r. eapply (inv_count _ _ I); exact Hx.
      * apply (inv_ids _ _ I).
    + eexists; split; [apply map_find_put_eq|reflexivity].
    + intros x j Hx. destruct (string_dec x s) as [->|Nx].
      * eexists; split; [apply map_find_put_eq|]. cbn. congruence.
      * exists j. rewrite map_find_put_neq by exact Nx. auto.
  - cbn [si_interim Z.eqb fst snd st_strings].
    assert (Hn : ~ In s (keys (st_strings t))) by (apply map_find_none; exact F).
    assert (Hl : ~ In s l) by (rewrite <- (inv_keys _ _ I); exact Hn).
    assert (Hlen : Z.of_nat (S (List.length (st_strings t))) <= 65535).
    { eapply Z.le_trans; [apply inj_le|exact HD].
      pose proof (nodup_incl_length (s :: keys (st_strings t)) (l ++ [s])) as H.
      cbn in H. unfold keys in H at 3. rewrite map_length in H. apply H.
      - constructor; [exact Hn|apply map_sorted_nodup; exact SO].
      - intros x [<-|Hx]; apply in_app_iff; [right; left; reflexivity|left; apply (inv_keys _ _ I); exact Hx]. }
    assert (Hu : to_u16 (st_size t + 1) = st_size t + 1) by (unfold to_u16; rewrite SZ; apply Z.mod_small; lia).
    rewrite Hu. split; [|split].
    + constructor; cbn [st_strings st_size st_id2id].
      * apply map_put_sorted; exact SO.
      * intros x. rewrite map_put_keys_in, (inv_keys _ _ I), in_app_iff. cbn. intuition.
      * rewrite SZ. rewrite (Permutation_length (map_put_new _ _ _ Hn)). cbn [List.length]. lia.
      * intros x j Hx. destruct (string_dec x s) as [->|Nx].
        -- rewrite map_find_put_eq in Hx. injection Hx as <-. cbn. lia.
        -- rewrite map_find_put_neq in Hx by exact Nx. apply (inv_range _ _ I) in Hx. lia.
      * intros x y j k Hx Hy E.
        destruct (string_dec x s) as [->|Nx]; destruct (string_dec y s) as [->|Ny]; try reflexivity.
        -- rewrite map_find_put_eq in Hx. rewrite map_find_put_neq in Hy by exact Ny. injection Hx as <-. cbn in E.
           apply (inv_range _ _ I) in Hy. lia.
        -- rewrite map_find_put_eq in Hy. rewrite map_find_put_neq in Hx by exact Nx. injection Hy as <-. cbn in E.
           apply (inv_range _ _ I) in Hx. lia.
        -- rewrite map_find_put_neq in Hx by exact Nx. rewrite map_find_put_neq in Hy by exact Ny.
           eapply (inv_inj _ _ I); eassumption.
      * intros x j Hx. rewrite occ_app. destruct (string_dec s x) as [->|Nx].
        -- rewrite map_find_put_eq in Hx. injection Hx as <-. cbn [si_count].
           unfold occurrences. rewrite (proj1 (count_occ_not_In string_dec l x) Hl). reflexivity.
        -- rewrite map_find_put_neq in Hx by congruence. rewrite Nat.add_0_r. eapply (inv_count _ _ I); exact Hx.
      * apply (inv_ids _ _ I).
    + eexists; split; [apply map_find_put_eq|reflexivity].
    + intros x j Hx. exists j. rewrite map_find_put_neq; [auto|]. intros ->. congruence.
Qed.

Lemma distinct_prefix l x r : Z.of_nat (distinct_strings (l ++ x :: r)) <= 65535 -> Z.of_nat (distinct_strings (l ++ [x])) <= 65535.
Proof.
  intros H. eapply Z.le_trans; [apply inj_le|exact H]. unfold distinct_strings at 1.
  apply nodup_incl_length; [apply NoDup_nodup|]. intros s. rewrite nodup_In, !in_app_iff. cbn. tauto.
Qed.

Lemma record_all_inv l : forall pre t, st_inv pre t -> (Z.of_nat (distinct_strings (pre ++ l)) <= 65535) ->
  let (t', ids) := record_all l t in
  st_inv (pre ++ l) t' /\ List.length ids = List.length l /\
  (forall s i, map_find s (st_strings t) = Some i ->
     exists i', map_find s (st_strings t') = Some i' /\ si_interim i' = si_interim i) /\
  (forall n s k, nth_error l n = Some s -> nth_error ids n = Some k ->
     exists i, map_find s (st_strings t') = Some i /\ si_interim i = k).
Proof.
  induction l as [|s l IH]; intros pre t I HD; cbn [record_all].
  - rewrite app_nil_r. split; [exact I|]. split; [reflexivity|]. split.
    + intros x i H; exists i; auto.
    + intros [|n]; discriminate.
  - destruct (record_inv pre s t I (distinct_prefix _ _ _ HD)) as (I1 & (i & F & E) & M).
    destruct (record_string s t) as [t1 k1]. cbn [fst snd] in *.
    specialize (IH (pre ++ [s]) t1 I1). rewrite <- app_assoc in IH. cbn [app] in IH. specialize (IH HD).
    destruct (record_all l t1) as [t2 ids]. destruct IH as (I2 & L2 & M2 & R2).
    split; [exact I2|]. split; [cbn; lia|]. split.
    + intros x j Hx. destruct (M x j Hx) as (j1 & F1 & E1). destruct (M2 x j1 F1) as (j2 & F2 & E2).
      exists j2. split; [exact F2|congruence].
    + intros [|n] x k; cbn.
      * intros [= ->] [= ->]. destruct (M2 x i F) as (j2 & F2 & E2). exists j2. split; [exact F2|congruence].
      * apply R2.
Qed.

Lemma vec_set_spec i v l : (i < List.length l)%nat -> exists l', vec_set i v l = Some l' /\
  List.length l' = List.length l /\ nth_error l' i = Some v /\ (forall j, j <> i -> nth_error l' j = nth_error l j).
Proof.
  revert i. induction l as [|x l IH]; intros [|i] H; cbn in *; try lia.
  - eexists; split; [reflexivity|]. cbn. repeat split. intros [|j] Hj; [congruence|reflexivity].
  - destruct (IH i ltac:(lia)) as (l' & E & L & N & O). rewrite E. eexists; split; [reflexivity|]. cbn.
    repeat split; [congruence|exact N|]. intros [|j] Hj; [reflexivity|]. cbn. apply O. lia.
Qed.

Lemma st_fill_spec sorted : forall n ids,
  NoDup (interims sorted) ->
  (forall e, In e sorted -> 0 <= si_interim (snd e) /\ (Z.to_nat (si_interim (snd e)) < List.length ids)%nat) ->
  0 <= n -> n + Z.of_nat (List.length sorted) <= 65535 ->
  exists ids', st_fill sorted n ids = Ok ids' /\ List.length ids' = List.length ids /\
    (forall p e, nth_error sorted p = Some e ->
       nth_error ids' (Z.to_nat (si_interim (snd e))) = Some (n + 1 + Z.of_nat p)) /\
    (forall k, (forall e, In e sorted -> Z.to_nat (si_interim (snd e)) <> k) -> nth_error ids' k = nth_error ids k).
Proof.
  induction sorted as [|[s i] r IH]; intros n ids ND HR Hn HL; cbn [st_fill].
  - eexists; repeat split. intros [|p]; discriminate.
  - cbn in ND. apply NoDup_cons_iff in ND as [N1 ND].
    destruct (HR (s, i)) as [R1 R2]; [left; reflexivity|]. cbn [snd] in R1, R2.
    destruct (vec_set_spec (Z.to_nat (si_interim i)) (to_u16 (n + 1)) ids R2) as (ids1 & E & L & N & O).
    rewrite E. cbn [List.length] in HL.
    destruct (IH (n + 1) ids1 ND) as (ids' & E' & L' & P' & O').
    + intros e He. rewrite L. apply HR. right; exact He.
    + lia.
    + lia.
    + exists ids'. split; [exact E'|]. split; [congruence|]. split.
      * intros [|p] e; cbn [nth_error].
        -- intros [= <-]. cbn [snd]. rewrite O'.
           ++ rewrite N. f_equal. unfold to_u16. rewrite Z.mod_small; lia.
           ++ intros e He C. apply N1. unfold interims. apply in_map_iff. exists e. split; [|exact He].
              destruct (HR e) as [R3 _]; [right; exact He|]. cbn. lia.
        -- intros H. rewrite (P' _ _ H). f_equal. lia.
      * intros k Hk. rewrite O'; [apply O|].
        -- intros ->. apply (Hk (s, i)); [left; reflexivity|reflexivity].
        -- intros e He. apply Hk. right; exact He.
Qed.

Lemma NoDup_map_inj_in {A B} (f : A -> B) l : NoDup l -> (forall x y, In x l -> In y l -> f x = f y -> x = y) -> NoDup (map f l).
Proof.
  induction l as [|a l IH]; cbn; intros ND H; [constructor|]. apply NoDup_cons_iff in ND as [N1 ND]. constructor.
  - intros C. apply in_map_iff in C as (b & E & Hb). apply N1. rewrite (H a b); auto. 
  - apply IH; [exact ND|]. intros; apply H; auto.
Qed.
Lemma NoDup_of_map {A B} (f : A -> B) l : NoDup (map f l) -> NoDup l.
Proof. apply NoDup_map_inv. Qed.

Lemma stringtable_main order l :
  by_count_desc order -> (Z.of_nat (distinct_strings l) <= 65535) ->
  let (t, ids) := record_all l st_new in
  exists t' tbl, store_stringtable order t = Ok (t', tbl) /\
    nth_error tbl 0 = Some ""%string /\
    Permutation (tl tbl) (nodup string_dec l) /\
    List.length ids = List.length l /\
    (forall n s k, nth_error l n = Some s -> nth_error ids n = Some k ->
       exists j, map_string_id k t' = Ok j /\ 1 <= j /\ nth_error tbl (Z.to_nat j) = Some s) /\
    ((forall s, Z.of_nat (occurrences l s) <= 65536) ->
       StronglySorted (fun a b => occurrences l a >= occurrences l b)%nat (tl tbl)).
Proof.
  intros HO HD. pose proof (record_all_inv l [] st_new st_new_inv HD) as H. cbn [app] in H.
  destruct (record_all l st_new) as [t ids]. destruct H as (I & L & _ & R).
  destruct (HO (st_strings t)) as [P S]. unfold store_stringtable.
  set (sorted := order (st_strings t)) in *.
  assert (NDk : NoDup (keys (st_strings t))) by (apply map_sorted_nodup; apply (inv_sorted _ _ I)).
  assert (Hfind : forall e, In e sorted -> map_find (fst e) (st_strings t) = Some (snd e)).
  { intros [s i] He. apply map_find_some_in; [exact NDk|]. eapply Permutation_in; [exact P|exact He]. }
  assert (NDs : NoDup sorted).
  { eapply Permutation_NoDup; [apply Permutation_sym; exact P|]. apply (NoDup_of_map fst). exact NDk. }
  assert (NDi : NoDup (interims sorted)).
  { apply NoDup_map_inj_in; [exact NDs|]. intros [s1 i1] [s2 i2] H1 H2 E. cbn in E.
    apply Hfind in H1, H2. cbn in H1, H2. assert (s1 = s2) by (eapply (inv_inj _ _ I); eassumption). subst. congruence. }
  assert (Hlen : List.length sorted = List.length (st_strings t)) by (apply Permutation_length; exact P).
  assert (Hd : Z.of_nat (List.length (st_strings t)) <= 65535).
  { eapply Z.le_trans; [apply inj_le|exact HD]. rewrite <- (map_length fst). apply nodup_incl_length; [exact NDk|].
    intros s. apply (inv_keys _ _ I). }
  destruct (st_fill_spec sorted 0 (vec_resize (Z.to_nat (st_size t + 1)) (st_id2id t))) as (ids' & E & L' & P' & _).
  - exact NDi.
  - intros e He. apply Hfind in He. apply (inv_range _ _ I) in He. split; [lia|].
    unfold vec_resize. rewrite (inv_ids _ _ I). rewrite app_length, repeat_length, firstn_nil. cbn [List.length]. lia.
  - lia.
  - rewrite Hlen. lia.
  - rewrite E. cbn [obind]. do 2 eexists. split; [reflexivity|]. split; [reflexivity|]. cbn [tl].
    assert (Pk : Permutation (map fst sorted) (keys (st_strings t))) by (apply Permutation_map; exact P).
    split; [|split; [exact L|split]].
    + rewrite Pk. apply NoDup_Permutation; [exact NDk|apply NoDup_nodup|].
      intros s. rewrite nodup_In. apply (inv_keys _ _ I).
    + intros n s k Hn Hk. destruct (R n s k Hn Hk) as (i & F & Ei).
      assert (Hin : In (s, i) sorted).
      { eapply Permutation_in; [apply Permutation_sym; exact P|]. apply map_find_in. exact F. }
      apply In_nth_error in Hin as [p Hp]. pose proof (P' _ _ Hp) as Hm. cbn [snd] in Hm.
      exists (0 + 1 + Z.of_nat p). unfold map_string_id. cbn [st_id2id]. rewrite <- Ei, Hm.
      split; [reflexivity|]. split; [lia|].
      replace (Z.to_nat (0 + 1 + Z.of_nat p)) with (Datatypes.S p) by lia. cbn [nth_error].
      rewrite nth_error_map, Hp. reflexivity.
    + intros HB.
      assert (Hc : forall e, In e sorted -> si_count (snd e) = Z.of_nat (occurrences l (fst e)) - 1).
      { intros e He. pose proof He as He2. apply Hfind in He. rewrite (inv_count _ _ I _ _ He). unfold to_u16.
        apply Z.mod_small. specialize (HB (fst e)).
        assert (In (fst e) l).
        { apply (inv_keys _ _ I). eapply Permutation_in; [exact Pk|]. apply in_map. exact He2. }
        apply (count_occ_In string_dec) in H. unfold occurrences in *. lia. }
      clear - S Hc. induction S as [|e r S IH F]; cbn; [constructor|]. constructor.
      * apply IH. intros; apply Hc; right; assumption.
      * apply Forall_forall. intros s Hs. apply in_map_iff in Hs as (e' & <- & He').
        rewrite Forall_forall in F. specialize (F _ He').
        pose proof (Hc e (or_introl eq_refl)). pose proof (Hc e' (or_intror He')). lia.
Qed.

(** more than 65535 different strings: interim ids wrap *)
Lemma record_fresh s t : ~ In s (keys (st_strings t)) ->
  snd (record_string s t) = to_u16 (st_size t + 1) /\ st_size (fst (record_string s t)) = st_size t + 1 /\
  (forall x, In x (keys (st_strings (fst (record_string s t)))) <-> x = s \/ In x (keys (st_strings t))).
Proof.
  intros H. unfold record_string. apply map_find_none in H. rewrite H. cbn [si_interim Z.eqb fst snd st_size st_strings].
  repeat split; apply map_put_keys_in.
Qed.
Lemma record_all_fresh l : forall t, NoDup l -> (forall s, In s l -> ~ In s (keys (st_strings t))) ->
  forall n s, nth_error l n = Some s ->
    nth_error (snd (record_all l t)) n = Some (to_u16 (st_size t + 1 + Z.of_nat n)).
Proof.
  induction l as [|x l IH]; intros t ND HF n s Hn; [destruct n; discriminate|].
  apply NoDup_cons_iff in ND as [N1 ND].
  destruct (record_fresh x t (HF x (or_introl eq_refl))) as (E1 & E2 & E3). cbn [record_all].
  destruct (record_string x t) as [t1 k]. cbn [fst snd] in *.
  specialize (IH t1 ND). destruct (record_all l t1) as [t2 ks]. cbn [snd] in *.
  destruct n as [|n]; cbn [nth_error] in *.
  - subst k. do 2 f_equal. lia.
  - rewrite (IH) with (s := s); [|intros y Hy C; apply E3 in C as [->|C]; [tauto|]; apply (HF y); [right; exact Hy|exact C]|exact Hn].
    do 2 f_equal. lia.
Qed.

Fixpoint as_string (n : nat) : string := match n with O => EmptyString | S n => String "a" (as_string n) end.
Lemma as_string_inj a b : as_string a = as_string b -> a = b.
Proof. revert b. induction a; intros [|b]; cbn; try congruence. intros [= E]. f_equal; auto. Qed.
Definition many : nat := Z.to_nat 65537.
Definition many_strings : list string := map as_string (seq 0 many).
Lemma many_nodup : NoDup many_strings.
Proof. apply FinFun.Injective_map_NoDup; [intros a b; apply as_string_inj|apply seq_NoDup]. Qed.
Lemma many_nth n : (n < many)%nat -> nth_error many_strings n = Some (as_string n).
Proof.
  intros H. unfold many_strings. rewrite nth_error_map.
  rewrite (nth_error_nth' (seq 0 many) 0%nat) by (rewrite seq_length; exact H).
  rewrite seq_nth by exact H. reflexivity.
Qed.
Lemma too_many_strings_refuted : exists l, forall order t' tbl,
  store_stringtable order (fst (record_all l st_new)) = Ok (t', tbl) ->
  ~ (forall n s k, nth_error l n = Some s -> nth_error (snd (record_all l st_new)) n = Some k ->
       exists j, map_string_id k t' = Ok j /\ nth_error tbl (Z.to_nat j) = Some s).
Proof.
  exists many_strings. intros order t' tbl _ C.
  pose proof (record_all_fresh many_strings st_new many_nodup (fun s _ H => H)) as F.
  assert (H0 : (0 < many)%nat) by (unfold many; lia).
  assert (H1 : (Z.to_nat 65536 < many)%nat) by (unfold many; lia).
  pose proof (many_nth _ H0) as N0. pose proof (many_nth _ H1) as N1.
  destruct (C _ _ _ N0 (F _ _ N0)) as (j0 & M0 & T0).
  destruct (C _ _ _ N1 (F _ _ N1)) as (j1 & M1 & T1).
  assert (E : to_u16 (st_size st_new + 1 + Z.of_nat (Z.to_nat 65536)) = to_u16 (st_size st_new + 1 + Z.of_nat 0)).
  { rewrite Z2Nat.id by lia. reflexivity. }
  rewrite E, M0 in M1. injection M1 as <-. rewrite T0 in T1.
  assert (K : (0 < Z.to_nat 65536)%nat) by lia.
  revert T1 K. generalize (Z.to_nat 65536). intros k [= T1] K.
  apply (as_string_inj 0) in T1. lia.
Qed.

(** use counts wrap at 65536 *)
Lemma StronglySorted_nth {A} (R : A -> A -> Prop) l : StronglySorted R l ->
  forall i j x y, (i < j)%nat -> nth_error l i = Some x -> nth_error l j = Some y -> R x y.
Proof.
  induction 1 as [|a l S IH F]; intros [|i] [|j] x y Hij Hx Hy; try lia; try discriminate; cbn in *.
  - injection Hx as <-. rewrite Forall_forall in F. apply F. eapply nth_error_In; exact Hy.
  - eapply IH; [|exact Hx|exact Hy]. lia.
Qed.
Definition often : list string := repeat "a"%string (Z.to_nat 65537) ++ ["b"; "b"]%string.
Lemma count_occ_repeat_eq s n : count_occ string_dec (repeat s n) s = n.
Proof. induction n; cbn; [reflexivity|]. destruct (string_dec s s); [lia|congruence]. Qed.
Lemma often_in s : In s often -> s = "a"%string \/ s = "b"%string.
Proof.
  unfold often. rewrite in_app_iff. intros [H|[H|[H|[]]]]; auto. apply repeat_spec in H. auto.
Qed.
Lemma often_distinct : (Z.of_nat (distinct_strings often) <= 65535).
Proof.
  unfold distinct_strings. eapply Z.le_trans with (m := 2); [|lia]. apply (inj_le _ 2).
  apply (NoDup_incl_length (l := nodup string_dec often) (l' := ["a"; "b"]%string)); [apply NoDup_nodup|].
  intros s Hs. apply nodup_In, often_in in Hs. cbn. intuition.
Qed.
Lemma often_a : occurrences often "a" = Z.to_nat 65537.
Proof.
  unfold occurrences, often. rewrite count_occ_app, count_occ_repeat_eq. cbn. lia.
Qed.
Lemma often_b : occurrences often "b" = 2%nat.
Proof.
  unfold occurrences, often. rewrite count_occ_app.
  rewrite (proj1 (count_occ_not_In string_dec (repeat "a"%string (Z.to_nat 65537)) "b"%string)).
  - reflexivity.
  - intros H. apply repeat_spec in H. discriminate.
Qed.
Lemma count_order_refuted : exists l, (Z.of_nat (distinct_strings l) <= 65535) /\ forall order t' tbl,
  by_count_desc order ->
  store_stringtable order (fst (record_all l st_new)) = Ok (t', tbl) ->
  ~ StronglySorted (fun a b => occurrences l a >= occurrences l b)%nat (tl tbl).
Proof.
  exists often. split; [exact often_distinct|]. intros order t' tbl HO ES HS.
  pose proof (record_all_inv often [] st_new st_new_inv often_distinct) as H. cbn [app] in H.
  destruct (record_all often st_new) as [t ids]. cbn [fst] in ES. destruct H as (I & _ & _ & _).
  destruct (HO (st_strings t)) as [P S]. unfold store_stringtable in ES.
  destruct (st_fill _ _ _) as [x| | |]; try discriminate. cbn in ES. injection ES as _ <-. cbn [tl] in HS.
  set (sorted := order (st_strings t)) in *.
  assert (NDk : NoDup (keys (st_strings t))) by (apply map_sorted_nodup; apply (inv_sorted _ _ I)).
  assert (HA : forall s, In s often -> exists p i, nth_error sorted p = Some (s, i) /\
     si_count i = to_u16 (Z.of_nat (occurrences often s) - 1)).
  { intros s Hs. apply (inv_keys _ _ I) in Hs. apply in_map_iff in Hs as ([s' i] & <- & Hi). cbn [fst].
    pose proof Hi as Hf. apply (map_find_some_in _ _ _ NDk) in Hf. apply (inv_count _ _ I) in Hf.
    eapply Permutation_in in Hi; [|apply Permutation_sym; exact P]. apply In_nth_error in Hi as [p Hp]. eauto. }
  destruct (HA "a"%string) as (p & i & Hp & Hi).
  { apply (count_occ_In string_dec). fold (occurrences often "a"%string). rewrite often_a. lia. }
  destruct (HA "b"%string) as (q & j & Hq & Hj).
  { apply (count_occ_In string_dec). fold (occurrences often "b"%string). rewrite often_b. lia. }
  rewrite often_a, Z2Nat.id in Hi by lia. rewrite often_b in Hj.
  change (to_u16 (65537 - 1)) with 0 in Hi. change (to_u16 (Z.of_nat 2 - 1)) with 1 in Hj.
  destruct (Nat.lt_trichotomy p q) as [L|[E|L]].
  - pose proof (StronglySorted_nth _ _ S _ _ _ _ L Hp Hq) as C. cbn in C. lia.
  - subst. congruence.
  - assert (C : (occurrences often "b" >= occurrences often "a")%nat).
    { eapply (StronglySorted_nth _ _ HS q p); [exact L| |].
      - rewrite nth_error_map, Hq. reflexivity.
      - rewrite nth_error_map, Hp. reflexivity. }
    rewrite often_a, often_b in C. lia.
Qed.
Lemma no_overflow_62 ops : Forall (fun v => - 4611686018427387904 <= v < 4611686018427387904) (values ops) -> no_overflow 0 ops.
Proof. apply no_overflow_half. lia. Qed.
Lemma st_clear_new t : st_clear t = st_new.
Proof. reflexivity. Qed.

Lemma insert_by_count_perm e l : Permutation (insert_by_count e l) (e :: l).
Proof.
  induction l as [|x r IH]; cbn; [reflexivity|]. destruct (_ <? _); [reflexivity|].
  rewrite IH. apply perm_swap.
Qed.
Lemma insertion_by_count_ok : by_count_desc insertion_by_count.
Proof.
  intros m. induction m as [|e m [P S]]; cbn; [split; constructor|]. split.
  - rewrite insert_by_count_perm. rewrite P. reflexivity.
  - clear P. change (fold_right insert_by_count [] m) with (insertion_by_count m).
    revert S. generalize (insertion_by_count m). intros l S.
    induction S as [|x r S IH F]; cbn; [constructor; constructor|].
    destruct (Z.ltb_spec (si_count (snd x)) (si_count (snd e))).
    + constructor; [constructor; assumption|]. constructor; [lia|].
      eapply Forall_impl; [|exact F]. cbn. intros; lia.
    + constructor; [exact IH|]. apply Forall_forall. intros y Hy.
      eapply Permutation_in in Hy; [|apply insert_by_count_perm]. destruct Hy as [<-|Hy]; [lia|].
      rewrite Forall_forall in F. apply F. exact Hy.
Qed.
