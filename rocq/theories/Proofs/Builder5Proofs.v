(** Proofs about Model/Builder.v: tags. *)
From Verif Require Import Base.Prelude Base.SMap Model.Osm Model.Builder Spec.BuilderSpec.

Lemma ignore_iff k : ignore_tag k = true <-> ignored k.
Proof.
  unfold ignore_tag, ignored. rewrite !orb_true_iff, !String.eqb_eq. tauto.
Qed.
Lemma ignore_not k : ignore_tag k = false <-> ~ ignored k.
Proof. rewrite <- ignore_iff. destruct (ignore_tag k); intuition congruence. Qed.
Lemma ignore_is k : ignore_tag k = is_ignored k.
Proof. unfold ignore_tag, is_ignored. cbn. now rewrite orb_false_r, !orb_assoc. Qed.
Lemma untagged_iff ts : untagged ts = true <-> forall k v, has_tag ts k v -> ignored k.
Proof.
  unfold untagged, has_tag. rewrite forallb_forall. split.
  - intros H k v I. specialize (H _ I). now apply ignore_iff in H.
  - intros H [k v] I. apply ignore_iff. now apply (H k v).
Qed.

Definition find_tag (k : string) (ts : tag_list) : option string :=
  match find (fun t => String.eqb (tkey t) k) ts with Some t => Some (tvalue t) | None => None end.
Lemma find_tag_cons k t ts : find_tag k (t :: ts) = if String.eqb (tkey t) k then Some (tvalue t) else find_tag k ts.
Proof. unfold find_tag. cbn. destruct (String.eqb (tkey t) k); auto. Qed.
Lemma find_tag_none k ts : find_tag k ts = None <-> ~ In k (map tkey ts).
Proof.
  induction ts as [|t ts IH]; [cbn; tauto|]. rewrite find_tag_cons. cbn. destruct (String.eqb_spec (tkey t) k); [split; [congruence|tauto]|]. tauto.
Qed.
Lemma find_tag_some k v ts : keys_unique ts -> (find_tag k ts = Some v <-> has_tag ts k v).
Proof.
  unfold keys_unique, has_tag. induction ts as [|t ts IH]; intros N; [cbn; split; [congruence|tauto]|].
  inversion N as [|? ? Nt N']; subst. rewrite find_tag_cons. cbn. destruct (String.eqb_spec (tkey t) k) as [<-|D].
  - split; [intros E; injection E as <-; left; now destruct t|]. intros [->|I]; auto.
    exfalso. apply Nt. apply (in_map tkey) in I. exact I.
  - rewrite IH by auto. split; auto. intros [->|I]; auto. now cbn in D.
Qed.
Lemma has_key_in k ts : has_key ts k <-> In k (map tkey ts).
Proof.
  unfold has_key, has_tag. rewrite in_map_iff. split; [intros (v & I); exists (mkTag k v); auto|]. intros ([k' v] & <- & I). eauto.
Qed.

Lemma fill_map_sorted ts : forall m, map_sorted m -> map_sorted (fill_map ts m).
Proof. induction ts as [|t ts IH]; intros m H; cbn; auto. apply IH. destruct (ignore_tag (tkey t)); auto using map_put_sorted. Qed.
Lemma fill_map_find ts : keys_unique ts -> forall m k,
  map_find k (fill_map ts m) = if ignore_tag k then map_find k m else match find_tag k ts with Some v => Some v | None => map_find k m end.
Proof.
  unfold keys_unique. induction ts as [|t ts IH]; intros N m k; [cbn; now destruct (ignore_tag k)|].
  inversion N as [|? ? Nt N']; subst. cbn [fill_map]. rewrite IH by auto. rewrite find_tag_cons.
  destruct (String.eqb_spec (tkey t) k) as [<-|D].
  - destruct (ignore_tag (tkey t)) eqn:E; auto. apply find_tag_none in Nt. now rewrite Nt, map_find_put_eq.
  - destruct (ignore_tag (tkey t)); auto. now rewrite map_find_put_neq by congruence.
Qed.

Definition drain_ok (m : list (string * string)) (t : tag) : Prop :=
  ignore_tag (tkey t) = true \/ match map_find (tkey t) m with Some v => v = tvalue t | None => tvalue t = ""%string end.
Lemma drain_spec ts : keys_unique ts -> forall m, map_sorted m ->
  match drain_map ts m with
  | Some m' => Forall (drain_ok m) ts /\ map_sorted m' /\
      forall k, map_find k m' = if negb (ignore_tag k) && existsb (fun t => String.eqb (tkey t) k) ts then None else map_find k m
  | None => ~ Forall (drain_ok m) ts
  end.
Proof.
  unfold keys_unique. induction ts as [|t ts IH]; intros N m Sm; cbn [drain_map].
  - split; auto. split; auto. intros k. cbn. now rewrite andb_false_r.
  - inversion N as [|? ? Nt N']; subst. destruct (ignore_tag (tkey t)) eqn:Ei.
    + specialize (IH N' m Sm). destruct (drain_map ts m) as [m'|].
      * destruct IH as (F & Sm' & H). split; [constructor; auto; now left|]. split; auto. intros k. rewrite H. cbn [existsb].
        destruct (String.eqb_spec (tkey t) k) as [<-|]; auto. now rewrite Ei.
      * intros F. apply IH. now inversion F.
    + (* the map after the entry is read and erased *)
      set (p := match map_find (tkey t) m with Some v => (v, m) | None => (""%string, map_put (tkey t) ""%string m) end).
      assert (Sp : map_sorted (snd p)) by (unfold p; destruct (map_find (tkey t) m); cbn; auto using map_put_sorted).
      assert (Fp : forall k, map_find k (map_erase (tkey t) (snd p)) = if String.eqb (tkey t) k then None else map_find k m).
      { intros k. destruct (String.eqb_spec (tkey t) k) as [<-|D].
        - apply map_find_erase_eq. now apply map_sorted_nodup.
        - rewrite map_find_erase_neq by congruence. unfold p. destruct (map_find (tkey t) m); cbn; auto. now rewrite map_find_put_neq by congruence. }
      assert (Vp : fst p = tvalue t <-> drain_ok m t).
      { unfold drain_ok, p. rewrite Ei. destruct (map_find (tkey t) m); cbn; intuition congruence. }
      destruct p as [v m1]. cbn [fst snd] in *. destruct (String.eqb_spec v (tvalue t)) as [Ev|Ev].
      * specialize (IH N' (map_erase (tkey t) m1) (map_erase_sorted _ _ Sp)).
        assert (Ok1 : forall u, In u ts -> drain_ok (map_erase (tkey t) m1) u <-> drain_ok m u).
        { intros u I. unfold drain_ok. rewrite Fp. destruct (String.eqb_spec (tkey t) (tkey u)) as [E|]; [|tauto].
          exfalso. apply Nt. rewrite E. now apply in_map. }
        destruct (drain_map ts (map_erase (tkey t) m1)) as [m'|].
        -- destruct IH as (F & Sm' & H). split; [|split; auto].
           ++ constructor; [now apply Vp|]. rewrite Forall_forall in *. intros u I. apply Ok1; auto.
           ++ intros k. rewrite H, Fp. cbn [existsb]. destruct (String.eqb_spec (tkey t) k) as [<-|]; auto. rewrite Ei. cbn. now destruct (existsb _ ts).
        -- intros F. apply IH. inversion F as [|? ? _ F']; subst. rewrite Forall_forall in *. intros u I. apply Ok1; auto.
      * intros F. inversion F as [|? ? Ft _]; subst. apply Vp in Ft. congruence.
Qed.
Lemma map_empty {V} (m : list (string * V)) : (forall k, map_find k m = None) -> m = [].
Proof. destruct m as [|[k v] m]; auto. intros H. specialize (H k). cbn in H. now rewrite String.eqb_refl in H. Qed.

Lemma existsb_key k ts : existsb (fun t => String.eqb (tkey t) k) ts = true <-> has_key ts k.
Proof.
  rewrite has_key_in, existsb_exists, in_map_iff. split; intros (t & A & B); exists t; [apply String.eqb_eq in B; auto|]. split; auto. now apply String.eqb_eq.
Qed.
Lemma same_tags_spec a b : keys_unique a -> keys_unique b ->
  (same_tags a b = true <->
   (forall k v, ~ ignored k -> has_tag a k v -> has_tag b k v) /\
   (forall k v, ~ ignored k -> has_tag b k v -> has_tag a k v \/ (v = ""%string /\ ~ has_key a k))).
Proof.
  intros Na Nb. unfold same_tags.
  assert (Sm : map_sorted (fill_map a [])) by (apply fill_map_sorted; constructor).
  assert (Fm : forall k, map_find k (fill_map a []) = if ignore_tag k then None else find_tag k a).
  { intros k. rewrite fill_map_find by auto. destruct (ignore_tag k); auto. now destruct (find_tag k a). }
  assert (Dr : Forall (drain_ok (fill_map a [])) b <-> forall k v, ~ ignored k -> has_tag b k v -> has_tag a k v \/ (v = ""%string /\ ~ has_key a k)).
  { rewrite Forall_forall. split.
    - intros H k v Ni I. specialize (H _ I). unfold drain_ok in H. cbn in H. apply ignore_not in Ni. rewrite Fm, Ni in H. destruct H as [H|H]; [congruence|].
      destruct (find_tag k a) as [u|] eqn:E; [left|right].
      + subst u. now apply find_tag_some in E.
      + split; auto. rewrite has_key_in. now apply find_tag_none.
    - intros H [k v] I. unfold drain_ok. cbn. destruct (ignore_tag k) eqn:E; auto. right. rewrite Fm, E.
      apply ignore_not in E. destruct (H k v E I) as [X|[-> X]].
      + apply find_tag_some in X; auto. now rewrite X.
      + rewrite has_key_in in X. apply find_tag_none in X. now rewrite X. }
  pose proof (drain_spec b Nb _ Sm) as D. destruct (drain_map b (fill_map a [])) as [m'|].
  - destruct D as (F0 & _ & H). pose proof (proj1 Dr F0) as F.
    assert (E : m' = [] <-> forall k v, ~ ignored k -> has_tag a k v -> has_tag b k v).
    { split.
      - intros -> k v Ni I. specialize (H k). cbn in H. pose proof Ni as Ni'. apply ignore_not in Ni. rewrite Fm, Ni in H. cbn in H.
        pose proof I as I'. apply find_tag_some in I; auto. rewrite I in H.
        destruct (existsb (fun t => String.eqb (tkey t) k) b) eqn:X; [|congruence]. apply existsb_key in X as [v' I2].
        destruct (F k v' Ni' I2) as [I3|[_ X]]; [|exfalso; apply X; now exists v].
        apply find_tag_some in I3; auto. rewrite I in I3. injection I3 as <-. exact I2.
      - intros X. apply map_empty. intros k. rewrite H, Fm. destruct (ignore_tag k) eqn:E; cbn; auto.
        destruct (find_tag k a) as [v|] eqn:Ef; [|now destruct (existsb _ b)]. apply find_tag_some in Ef; auto.
        apply ignore_not in E. specialize (X k v E Ef). rewrite (proj2 (existsb_key k b)); auto. now exists v. }
    destruct m' as [|p m'].
    + split; auto. intros _. split; auto. now apply E.
    + split; [discriminate|]. intros [X _]. apply E in X. discriminate.
  - split; [discriminate|]. intros [_ X]. destruct (D (proj2 Dr X)).
Qed.

(* ---- merging ---- *)
Lemma merge_loop_spec ts : keys_unique ts -> forall m area rv,
  merge_loop ts m area rv =
  (area ++ filter (fun t => negb (ignore_tag (tkey t)) && match map_find (tkey t) m with Some _ => false | None => true end) ts,
   rv && forallb (fun t => ignore_tag (tkey t) || match map_find (tkey t) m with Some v => String.eqb v (tvalue t) | None => true end) ts).
Proof.
  unfold keys_unique. induction ts as [|t ts IH]; intros N m area rv; cbn [merge_loop filter forallb].
  - now rewrite app_nil_r, andb_true_r.
  - inversion N as [|? ? Nt N']; subst. destruct (ignore_tag (tkey t)) eqn:E; cbn [negb andb orb]; [now apply IH|].
    destruct (map_find (tkey t) m) as [v|] eqn:Ef.
    + rewrite IH by auto. f_equal. now destruct (String.eqb v (tvalue t)), rv.
    + rewrite IH by auto. unfold tl_add. rewrite <- app_assoc. cbn [app].
      assert (X : forall u, In u ts -> map_find (tkey u) (map_put (tkey t) (tvalue t) m) = map_find (tkey u) m).
      { intros u I. apply map_find_put_neq. intros Eu. apply Nt. rewrite <- Eu. now apply in_map. }
      f_equal.
      * f_equal. destruct t as [k v]. f_equal. apply filter_ext_in. intros u I. now rewrite X.
      * f_equal. clear - X. induction ts as [|u ts IH]; auto. cbn. rewrite X by now left. f_equal. apply IH. intros w I. apply X. now right.
Qed.
Lemma merge_tags_spec area way : keys_unique area -> keys_unique way ->
  fst (merge_tags area way) = area ++ filter (is_new area) way /\
  (snd (merge_tags area way) = true <-> forall k v v', ~ ignored k -> has_tag way k v -> has_tag area k v' -> v = v').
Proof.
  intros Na Nw. unfold merge_tags. rewrite merge_loop_spec by auto.
  assert (Fm : forall k, map_find k (fill_map area []) = if ignore_tag k then None else find_tag k area).
  { intros k. rewrite fill_map_find by auto. destruct (ignore_tag k); auto. now destruct (find_tag k area). }
  cbn [fst snd]. split.
  - f_equal. apply filter_ext. intros t. unfold is_new. rewrite <- ignore_is. destruct (ignore_tag (tkey t)) eqn:E; auto. cbn.
    rewrite Fm, E. destruct (find_tag (tkey t) area) as [v|] eqn:Ef.
    + apply find_tag_some in Ef; auto. rewrite (proj2 (existsb_key (tkey t) area)); auto. now exists v.
    + destruct (existsb _ area) eqn:X; auto. apply existsb_key in X. rewrite has_key_in in X. apply find_tag_none in Ef. tauto.
  - cbn [andb]. rewrite forallb_forall. split.
    + intros H k v v' Ni Iw Ia. specialize (H _ Iw). cbn in H. apply ignore_not in Ni. rewrite Fm, Ni in H. cbn in H.
      apply find_tag_some in Ia; auto. rewrite Ia in H. now apply String.eqb_eq in H.
    + intros H [k v] I. cbn. destruct (ignore_tag k) eqn:E; auto. cbn. rewrite Fm, E. destruct (find_tag k area) as [v'|] eqn:Ef; auto.
      apply find_tag_some in Ef; auto. apply ignore_not in E. apply String.eqb_eq. symmetry. eapply H; eauto.
Qed.
Lemma merge_keys_unique area way : keys_unique area -> keys_unique way -> keys_unique (fst (merge_tags area way)).
Proof.
  intros Na Nw. rewrite (proj1 (merge_tags_spec area way Na Nw)). unfold keys_unique in *. rewrite map_app.
  induction area as [|t area IH] using rev_ind; cbn [map app].
  - clear Na. induction way as [|u way IH]; cbn; [constructor|]. inversion Nw; subst. destruct (is_new [] u); cbn; auto. constructor; auto.
    intros I. apply H1. apply in_map_iff in I as (x & E & I). apply filter_In in I as [I _]. rewrite <- E. now apply in_map.
  - clear IH. assert (H : forall l1 l2 : list string, NoDup l1 -> NoDup l2 -> (forall x, In x l1 -> ~ In x l2) -> NoDup (l1 ++ l2)).
    { induction l1 as [|x l1 IH]; intros l2 N1 N2 D; auto. cbn. inversion N1; subst. constructor.
      - rewrite in_app_iff. intros [X|X]; auto. apply (D x); auto. now left.
      - apply IH; auto. intros y I. apply D. now right. }
    apply H; auto.
    + induction way as [|u way IH]; cbn; [constructor|]. inversion Nw; subst. destruct (is_new (area ++ [t]) u); cbn; auto. constructor; auto.
      intros I. apply H2. apply in_map_iff in I as (x & E & I). apply filter_In in I as [I _]. rewrite <- E. now apply in_map.
    + intros k I1 I2. apply in_map_iff in I2 as (u & <- & I2). apply filter_In in I2 as [_ E]. unfold is_new in E. apply andb_true_iff in E as [_ E].
      apply negb_true_iff in E. rewrite (proj2 (existsb_key (tkey u) (area ++ [t]))) in E; [discriminate|]. now apply has_key_in.
Qed.
