(** The string table of a block: ids stand for strings. *)
From Verif Require Import Base.Prelude Base.SMap Model.Osm Model.Utils Model.OsmFile Model.Handler Model.Pbf
  Spec.UtilsSpec Spec.TagsSpec Spec.HandlerSpec Spec.PbfSpec Proofs.UtilsProofs.

Ltac bind_inv H :=
  lazymatch type of H with
  | obind ?x _ = Ok _ => let E := fresh "E" in destruct x eqn:E; cbn [obind] in H; try discriminate H
  end.

(* ---- interim ids ---- *)
Definition stands (t : stringtable) (k : Z) (s : string) : Prop :=
  exists i, map_find s (st_strings t) = Some i /\ si_interim i = k.
Definition ext (t t' : stringtable) : Prop := forall k s, stands t k s -> stands t' k s.
Lemma ext_refl t : ext t t.
Proof. intros k s H; exact H. Qed.
Lemma ext_trans a b d : ext a b -> ext b d -> ext a d.
Proof. intros H1 H2 k s H. auto. Qed.
Lemma Forall2_mono {A B} (R R' : A -> B -> Prop) l l' : (forall a b, R a b -> R' a b) -> Forall2 R l l' -> Forall2 R' l l'.
Proof. intros H F. induction F; constructor; auto. Qed.

Definition room (l : list string) : Prop := Z.of_nat (distinct_strings l) <= 65535.
Lemma room_incl l l' : (forall s, In s l -> In s l') -> room l' -> room l.
Proof.
  intros H R. unfold room in *. eapply Z.le_trans; [apply inj_le|exact R]. unfold distinct_strings at 1.
  apply nodup_incl_length; [apply NoDup_nodup|]. intros s. rewrite nodup_In. apply H.
Qed.
Lemma room_app_l l l' : room (l ++ l') -> room l.
Proof. apply room_incl. intros s. rewrite in_app_iff. auto. Qed.

Lemma record_stands l s t t' k : st_inv l t -> room (l ++ [s]) -> record_string s t = (t', k) ->
  st_inv (l ++ [s]) t' /\ stands t' k s /\ ext t t'.
Proof.
  intros I R E. destruct (record_inv l s t I R) as (I1 & (i & F & Ei) & M). rewrite E in *. cbn [fst snd] in *.
  split; [exact I1|]. split; [exists i; auto|]. intros k' s' (i' & F' & E'). destruct (M s' i' F') as (i2 & F2 & E2).
  exists i2. split; [exact F2|congruence].
Qed.
Lemma stands_range l t k s : st_inv l t -> room l -> stands t k s -> 1 <= k <= 65535.
Proof.
  intros I R (i & F & <-). pose proof (inv_range _ _ I _ _ F). rewrite (inv_size _ _ I) in H.
  assert (Z.of_nat (List.length (st_strings t)) <= 65535); [|lia].
  eapply Z.le_trans; [apply inj_le|exact R]. rewrite <- (map_length fst).
  apply nodup_incl_length; [apply map_sorted_nodup; apply (inv_sorted _ _ I)|]. intros x. apply (inv_keys _ _ I).
Qed.

Definition tags_rel (S : Z -> string -> Prop) (ts : tag_list) (ks vs : list Z) : Prop :=
  Forall2 S ks (map tkey ts) /\ Forall2 S vs (map tvalue ts).
Lemma tags_rel_mono (S S' : Z -> string -> Prop) ts ks vs : (forall k s, S k s -> S' k s) -> tags_rel S ts ks vs -> tags_rel S' ts ks vs.
Proof. intros H [A B]. split; eapply Forall2_mono; eauto. Qed.

Lemma record_tags_stands ts : forall l t t' ks vs, st_inv l t -> room (l ++ tag_texts ts) -> record_tags ts t = (t', ks, vs) ->
  st_inv (l ++ tag_texts ts) t' /\ tags_rel (stands t') ts ks vs /\ ext t t'.
Proof.
  induction ts as [|x ts IH]; intros l t t' ks vs I R E.
  - injection E as <- <- <-. cbn. rewrite app_nil_r. split; [exact I|]. split; [split; constructor|apply ext_refl].
  - cbn [record_tags] in E. destruct (record_string (tkey x) t) as [t1 k] eqn:E1.
    destruct (record_string (tvalue x) t1) as [t2 v] eqn:E2. destruct (record_tags ts t2) as [[t3 ks'] vs'] eqn:E3.
    injection E as <- <- <-. cbn [tag_texts flat_map] in *. fold (tag_texts ts) in *.
    destruct (record_stands l (tkey x) t t1 k I) as (I1 & S1 & X1); [|exact E1|].
    { eapply room_incl; [|exact R]. intros s. rewrite !in_app_iff. cbn. tauto. }
    destruct (record_stands (l ++ [tkey x]) (tvalue x) t1 t2 v I1) as (I2 & S2 & X2); [|exact E2|].
    { eapply room_incl; [|exact R]. intros s. rewrite !in_app_iff. cbn. tauto. }
    rewrite <- app_assoc in I2. cbn [app] in I2.
    destruct (IH (l ++ [tkey x; tvalue x]) t2 t3 ks' vs' I2) as (I3 & [S3 S4] & X3); [|exact E3|].
    { rewrite <- app_assoc. exact R. }
    rewrite <- app_assoc in I3. split; [exact I3|]. split; [|eauto using ext_trans].
    split; constructor; auto.
Qed.

(* ---- final ids ---- *)
Definition final_id (tbl : list string) (j : Z) (s : string) : Prop :=
  1 <= j <= 65535 /\ nth_error tbl (Z.to_nat j) = Some s.
Lemma store_final order l t : by_count_desc order -> st_inv l t -> room l ->
  exists t' tbl, store_stringtable order t = Ok (t', tbl) /\
    (forall k s, stands t k s -> exists j, map_string_id k t' = Ok j /\ final_id tbl j s) /\
    exists ts, tbl = ""%string :: ts /\ NoDup ts /\ forall s, In s ts <-> In s l.
Proof.
  intros HO I R. destruct (HO (st_strings t)) as [P _]. unfold store_stringtable.
  set (sorted := order (st_strings t)) in *.
  assert (NDk : NoDup (keys (st_strings t))) by (apply map_sorted_nodup; apply (inv_sorted _ _ I)).
  assert (Hfind : forall e, In e sorted -> map_find (fst e) (st_strings t) = Some (snd e)).
  { intros [s i] He. apply map_find_some_in; [exact NDk|]. eapply Permutation_in; [exact P|exact He]. }
  assert (NDs : NoDup sorted).
  { eapply Permutation_NoDup; [apply Permutation_sym; exact P|]. apply (NoDup_of_map fst). exact NDk. }
  assert (NDi : NoDup (interims sorted)).
  { apply NoDup_map_inj_in; [exact NDs|]. intros [s1 i1] [s2 i2] H1 H2 E. cbn in E.
    apply Hfind in H1, H2. cbn in H1, H2. assert (s1 = s2) by (eapply (inv_inj _ _ I); eassumption). subst. congruence. }
  assert (Hlen : List.length sorted = List.length (st_strings t)) by (apply Permutation_length; exact P).
  assert (Hd : Z.of_nat (List.length (st_strings t)) <= 65535).
  { eapply Z.le_trans; [apply inj_le|exact R]. rewrite <- (map_length fst). apply nodup_incl_length; [exact NDk|].
    intros s. apply (inv_keys _ _ I). }
  destruct (st_fill_spec sorted 0 (vec_resize (Z.to_nat (st_size t + 1)) (st_id2id t))) as (ids' & E & L' & P' & _).
  - exact NDi.
  - intros e He. apply Hfind in He. apply (inv_range _ _ I) in He. split; [lia|].
    unfold vec_resize. rewrite (inv_ids _ _ I). rewrite app_length, repeat_length, firstn_nil. cbn [List.length]. lia.
  - lia.
  - rewrite Hlen. lia.
  - rewrite E. cbn [obind]. do 2 eexists. split; [reflexivity|].
    split; [|eexists; split; [reflexivity|]; split;
      [eapply Permutation_NoDup; [apply Permutation_sym, Permutation_map; exact P|exact NDk]|];
      intros s; rewrite <- (inv_keys _ _ I); split; apply Permutation_in; [|apply Permutation_sym]; apply Permutation_map; exact P].
    intros k s (i & F & Ei).
    assert (Hin : In (s, i) sorted).
    { eapply Permutation_in; [apply Permutation_sym; exact P|]. apply map_find_in. exact F. }
    apply In_nth_error in Hin as [p Hp]. pose proof (P' _ _ Hp) as Hm. cbn [snd] in Hm.
    exists (0 + 1 + Z.of_nat p). unfold map_string_id. cbn [st_id2id]. rewrite <- Ei, Hm.
    split; [reflexivity|]. assert (p < List.length sorted)%nat by (apply nth_error_Some; congruence). split; [lia|].
    replace (Z.to_nat (0 + 1 + Z.of_nat p)) with (Datatypes.S p) by lia. cbn [nth_error].
    rewrite nth_error_map, Hp. reflexivity.
Qed.

(* ---- mapping ids ---- *)
Section Mapping.
Variables (t : stringtable) (S S' : Z -> string -> Prop).
Hypothesis HM : forall k s, S k s -> exists j, map_string_id k t = Ok j /\ S' j s.

Lemma map_ids_rel ks ss : Forall2 S ks ss -> exists js, map_ids t ks = Ok js /\ Forall2 S' js ss.
Proof.
  induction 1 as [|k s ks ss Hk _ (js & E & F)]; [exists []; split; [reflexivity|constructor]|].
  destruct (HM k s Hk) as (j & Ej & Hj). exists (j :: js). cbn [map_ids]. rewrite Ej, E. split; [reflexivity|constructor; assumption].
Qed.
Lemma map_tags_rel ts ks vs : tags_rel S ts ks vs -> exists ks' vs', map_ids t ks = Ok ks' /\ map_ids t vs = Ok vs' /\ tags_rel S' ts ks' vs'.
Proof.
  intros [A B]. destruct (map_ids_rel _ _ A) as (ks' & E1 & F1). destruct (map_ids_rel _ _ B) as (vs' & E2 & F2).
  exists ks', vs'. repeat split; assumption.
Qed.
Lemma map_kv_app a : forall b x y, map_kv t a = Ok x -> map_kv t b = Ok y -> map_kv t (a ++ b) = Ok (x ++ y).
Proof.
  induction a as [|k a IH]; intros b x y E1 E2; [injection E1 as <-; exact E2|].
  cbn [app map_kv] in *. bind_inv E1. bind_inv E1. injection E1 as <-. rewrite (IH b _ y eq_refl E2). reflexivity.
Qed.
Hypothesis HS : forall k s, S k s -> 1 <= k <= 65535.
Lemma map_kv_tags ts : forall ks vs, tags_rel S ts ks vs ->
  exists ks' vs', map_kv t (interleave ks vs ++ [0]) = Ok (interleave ks' vs' ++ [0]) /\ tags_rel S' ts ks' vs'.
Proof.
  induction ts as [|x ts IH]; intros ks vs [A B]; cbn in A, B; inversion A as [|k ? ks1 ? Hk A1]; inversion B as [|v ? vs1 ? Hv B1]; subst.
  - exists [], []. split; [reflexivity|split; constructor].
  - destruct (IH ks1 vs1) as (ks' & vs' & E & F1 & F2); [split; assumption|].
    destruct (HM _ _ Hk) as (j & Ej & Hj). destruct (HM _ _ Hv) as (i & Ei & Hi).
    exists (j :: ks'), (i :: vs'). split; [|split; constructor; assumption].
    cbn [interleave app map_kv]. pose proof (HS _ _ Hk). pose proof (HS _ _ Hv).
    assert (Ek : to_u16 k = k) by (unfold to_u16; lia). assert (Ev : to_u16 v = v) by (unfold to_u16; lia).
    rewrite Ek, Ev. assert (Gk : (k >? 0) = true) by lia. assert (Gv : (v >? 0) = true) by lia.
    rewrite Gk, Gv, Ej, Ei. cbn [obind]. rewrite E. reflexivity.
Qed.
End Mapping.
