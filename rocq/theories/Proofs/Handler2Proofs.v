(** Proofs about Sequence, EndTime, RangeFromHistory, CoordinatesForWays and FindBbox. *)
From Verif Require Import Base.Prelude Model.Osm Model.Store Model.Handler Spec.OsmSpec Spec.StoreSpec Spec.HandlerSpec
  Proofs.OsmProofs Proofs.StoreProofs Proofs.HandlerProofs.

Lemma takes_nil S (step : callback -> S -> S * option halt) s s' : takes step [] s s' <-> s = s'.
Proof. unfold takes; cbn; split; [intros [= <-]; auto|intros ->; auto]. Qed.
Lemma takes_cons S (step : callback -> S -> S * option halt) c cs s s' :
  takes step (c :: cs) s s' <-> exists s1, step c s = (s1, None) /\ takes step cs s1 s'.
Proof.
  unfold takes; cbn. split.
  - destruct (step c s) as [s1 [h|]]; [discriminate|]. destruct (feed step cs s1) as [[m s2] h] eqn:E.
    intros H; injection H as -> -> ->. exists s1; auto.
  - intros (s1 & -> & ->). reflexivity.
Qed.
Lemma takes_app S (step : callback -> S -> S * option halt) p q s s' :
  takes step (p ++ q) s s' <-> exists s1, takes step p s s1 /\ takes step q s1 s'.
Proof.
  revert s; induction p as [|c p IH]; intros s; cbn [app].
  - setoid_rewrite takes_nil. split; [eauto|intros (s1 & <- & H); auto].
  - rewrite takes_cons. split.
    + intros (s1 & E & H). apply IH in H as (s2 & H1 & H2). exists s2; split; auto. apply takes_cons; eauto.
    + intros (s2 & H1 & H2). apply takes_cons in H1 as (s1 & E & H1). exists s1; split; auto. apply IH; eauto.
Qed.
Lemma takes_one S (step : callback -> S -> S * option halt) c s s' :
  takes step [c] s s' <-> step c s = (s', None).
Proof.
  rewrite takes_cons. split.
  - intros (s1 & E & H). apply takes_nil in H as ->; auto.
  - intros E; exists s'; split; auto. now apply takes_nil.
Qed.

(* ---- C22 ---- *)
Lemma sequence_alone A B (h1 : callback -> A -> A * option halt) (h2 : callback -> B -> B * option halt) cs a a' b b' :
  takes h1 cs a a' -> takes h2 cs b b' ->
  takes (sequence (on_fst h1) (on_snd h2)) cs (a, b) (a', b').
Proof.
  revert a b; induction cs as [|c r IH]; intros a b H1 H2.
  - apply takes_nil in H1, H2. apply takes_nil. congruence.
  - apply takes_cons in H1 as (a1 & E1 & H1). apply takes_cons in H2 as (b1 & E2 & H2).
    apply takes_cons. exists (a1, b1). split; [|eauto].
    unfold sequence, on_fst, on_snd; cbn. rewrite E1; cbn. rewrite E2. reflexivity.
Qed.
Lemma sequence_throw1 A B (h1 : callback -> A -> A * option halt) (h2 : callback -> B -> B * option halt) p c q a a1 a2 b b1 h :
  takes h1 p a a1 -> takes h2 p b b1 -> h1 c a1 = (a2, Some h) ->
  feed (sequence (on_fst h1) (on_snd h2)) (p ++ c :: q) (a, b) = (p ++ [c], (a2, b1), Some h).
Proof.
  intros H1 H2 E. eapply feed_at; [eapply sequence_alone; eauto|].
  unfold sequence, on_fst; cbn. rewrite E. reflexivity.
Qed.
Lemma sequence_throw2 A B (h1 : callback -> A -> A * option halt) (h2 : callback -> B -> B * option halt) p c q a a1 a2 b b1 b2 h :
  takes h1 p a a1 -> takes h2 p b b1 -> h1 c a1 = (a2, None) -> h2 c b1 = (b2, Some h) ->
  feed (sequence (on_fst h1) (on_snd h2)) (p ++ c :: q) (a, b) = (p ++ [c], (a2, b2), Some h).
Proof.
  intros H1 H2 E1 E2. eapply feed_at; [eapply sequence_alone; eauto|].
  unfold sequence, on_fst, on_snd; cbn. rewrite E1; cbn. rewrite E2. reflexivity.
Qed.
Lemma forward_transparent {S} (next : callback -> S -> S * option halt) cs : forall s,
  feed (stacked next forward_prog) cs (tt, s) = let '(tr, s', h) := feed next cs s in (tr, (tt, s'), h).
Proof.
  induction cs as [|c cs IH]; intros s; cbn [feed]; [reflexivity|].
  unfold stacked at 1, forward_prog at 1. cbn [exec fst snd]. destruct (next c s) as [s' [h|]]; [reflexivity|].
  rewrite IH. destruct (feed next cs s') as [[tr s''] h]. reflexivity.
Qed.
Lemma sequence_order cs l :
  takes (sequence (tagged_recorder 1) (tagged_recorder 2)) cs l (l ++ flat_map (fun c => [(1%nat, c); (2%nat, c)]) cs).
Proof.
  revert l; induction cs as [|c r IH]; intros l.
  - apply takes_nil. cbn. now rewrite app_nil_r.
  - apply takes_cons. eexists; split; [reflexivity|]. cbn [flat_map].
    replace (l ++ [(1%nat, c); (2%nat, c)] ++ flat_map (fun c => [(1%nat, c); (2%nat, c)]) r)
      with (((l ++ [(1%nat, c)]) ++ [(2%nat, c)]) ++ flat_map (fun c => [(1%nat, c); (2%nat, c)]) r).
    + apply IH.
    + now rewrite <- !app_assoc.
Qed.

(* ---- C23 ---- *)
Lemma l_put_put t x y l : l_put t x (l_put t y l) = l_put t x l.
Proof. destruct t; reflexivity. Qed.
Lemma l_get_put t x l : object_type t -> l_get t (l_put t x l) = x.
Proof. intros [->|[->| ->]]; reflexivity. Qed.
Lemma l_put_none t : l_put t None lasts_new = lasts_new.
Proof. destruct t; reflexivity. Qed.

Lemma exec_put T S (next : callback -> S -> S * option halt) (t : T) r ts : exec next (APut t :: r) ts = exec next r (t, snd ts).
Proof. reflexivity. Qed.
Lemma exec_call T S (next : callback -> S -> S * option halt) c (r : list (act T)) (t : T) s s1 :
  next c s = (s1, None) -> exec next (ACall c :: r) (t, s) = exec next r (t, s1).
Proof. intros E; cbn. now rewrite E. Qed.

Lemma last_cons {A} (o : A) r d : last (o :: r) d = last r o.
Proof.
  revert o d; induction r as [|a r IH]; intros o d; [reflexivity|].
  change (last (o :: a :: r) d) with (last (a :: r) d). now rewrite (IH a d), (IH a o).
Qed.
Lemma ends_cons2 a b r :
  ends (a :: b :: r) = (if obj_id b =? obj_id a then with_endtime a (obj_timestamp b) else a) :: ends (b :: r).
Proof. reflexivity. Qed.
Lemma ends_nonnil a r : ends (a :: r) <> [].
Proof. cbn. discriminate. Qed.

Lemma endtime_objs S (next : callback -> S -> S * option halt) t : object_type t ->
  forall os la s s', (forall o, In o os -> obj_type o = t) ->
  takes next (map CObj (removelast (ends (la :: os)))) s s' ->
  takes (stacked next endtime_prog) (map CObj os) (l_put t (Some la) lasts_new, s)
        (l_put t (Some (last os la)) lasts_new, s').
Proof.
  intros Tt. induction os as [|o r IH]; intros la s s' Ht H.
  - cbn in H. apply takes_nil in H as ->. now apply takes_nil.
  - rewrite ends_cons2 in H. set (la' := if obj_id o =? obj_id la then _ else _) in H.
    replace (removelast (la' :: ends (o :: r))) with (la' :: removelast (ends (o :: r))) in H
      by (pose proof (ends_nonnil o r); destruct (ends (o :: r)); [congruence|reflexivity]).
    cbn [map] in H. apply takes_cons in H as (s1 & E & H).
    cbn [map]. apply takes_cons. exists (l_put t (Some o) lasts_new, s1). split.
    + unfold stacked, endtime_prog. cbn [fst]. rewrite (Ht o (or_introl eq_refl)), l_get_put by auto.
      rewrite !l_put_put. cbn [app]. rewrite exec_put. cbn [snd].
      rewrite (exec_call _ _ _ _ _ _ _ s1) by exact E. reflexivity.
    + rewrite last_cons. apply IH; auto. intros x Hx; apply Ht; right; auto.
Qed.

Lemma ends_last os la : removelast (ends (la :: os)) ++ [last os la] = ends (la :: os).
Proof.
  revert la; induction os as [|o r IH]; intros la; [reflexivity|].
  rewrite ends_cons2. set (la' := if obj_id o =? obj_id la then with_endtime la (obj_timestamp o) else la).
  replace (removelast (la' :: ends (o :: r))) with (la' :: removelast (ends (o :: r)))
      by (pose proof (ends_nonnil o r); destruct (ends (o :: r)); [congruence|reflexivity]).
  cbn [app]. f_equal. rewrite last_cons. apply IH.
Qed.

Lemma endtime_run S (next : callback -> S -> S * option halt) t os s s' : well_typed (t, os) ->
  takes next (bracket (t, ends os)) s s' ->
  takes (stacked next endtime_prog) (bracket (t, os)) (lasts_new, s) (lasts_new, s').
Proof.
  intros [Tt Ho] H; cbn [fst snd] in *. unfold bracket in *; cbn [fst snd] in *.
  apply takes_cons in H as (s1 & E & H). apply takes_cons. exists (lasts_new, s1). split.
  { unfold stacked, endtime_prog; cbn [fst]. now rewrite (exec_call _ _ _ _ _ _ _ s1) by exact E. }
  destruct os as [|o os].
  - cbn in H |- *. apply takes_one in H. apply takes_one. unfold stacked, endtime_prog; cbn [fst].
    replace (l_get t lasts_new) with (@None object) by (destruct t; reflexivity). cbn [app].
    now rewrite (exec_call _ _ _ _ _ _ _ s') by exact H.
  - rewrite <- ends_last, map_app, <- app_assoc in H. apply takes_app in H as (s2 & H1 & H2).
    cbn [map app] in H2. apply takes_cons in H2 as (s3 & E2 & H2). apply takes_one in H2.
    cbn [map app]. apply takes_cons. exists (l_put t (Some o) lasts_new, s1). split.
    { unfold stacked, endtime_prog; cbn [fst]. rewrite (Ho o (or_introl eq_refl)).
      replace (l_get t lasts_new) with (@None object) by (destruct t; reflexivity). reflexivity. }
    apply takes_app. exists (l_put t (Some (last os o)) lasts_new, s2). split.
    + apply endtime_objs; auto. intros x Hx; apply Ho; right; auto.
    + apply takes_one. unfold stacked, endtime_prog; cbn [fst]. rewrite l_get_put by auto.
      cbn [app]. rewrite (exec_call _ _ _ _ _ _ _ s3) by exact E2. rewrite exec_put; cbn [snd].
      rewrite (exec_call _ _ _ _ _ _ _ s') by exact H2. rewrite l_put_put, l_put_none. reflexivity.
Qed.

Lemma endtime_runs S (next : callback -> S -> S * option halt) runs : (forall g, In g runs -> well_typed g) ->
  forall s s',
  takes next (flat_map (fun r => bracket (fst r, ends (snd r))) runs) s s' ->
  takes (stacked next endtime_prog) (flat_map bracket runs) (lasts_new, s) (lasts_new, s').
Proof.
  induction runs as [|[t os] r IH]; intros W s s' H; cbn [flat_map] in *.
  - apply takes_nil in H as ->. now apply takes_nil.
  - apply takes_app in H as (s1 & H1 & H2). apply takes_app. exists (lasts_new, s1). split.
    + apply endtime_run; auto. apply W; left; auto.
    + apply IH; auto. intros g Hg; apply W; right; auto.
Qed.

Theorem endtime_correct : forall S (next : callback -> S -> S * option halt) runs s s',
  (forall g, In g runs -> well_typed g) ->
  takes next (CInit :: flat_map (fun r => bracket (fst r, ends (snd r))) runs ++ [CFinal]) s s' ->
  takes (stacked next endtime_prog) (CInit :: flat_map bracket runs ++ [CFinal]) (lasts_new, s) (lasts_new, s').
Proof.
  intros S next runs s s' W H. apply takes_cons in H as (s1 & E & H). apply takes_cons. exists (lasts_new, s1). split.
  { unfold stacked, endtime_prog; cbn [fst]. now rewrite (exec_call _ _ _ _ _ _ _ s1) by exact E. }
  apply takes_app in H as (s2 & H1 & H2). apply takes_one in H2. apply takes_app. exists (lasts_new, s2). split.
  - apply endtime_runs; auto.
  - apply takes_one. unfold stacked, endtime_prog; cbn [fst]. now rewrite (exec_call _ _ _ _ _ _ _ s') by exact H2.
Qed.

Lemma with_endtime_fields o e : obj_type (with_endtime o e) = obj_type o /\ obj_id (with_endtime o e) = obj_id o /\
  obj_version (with_endtime o e) = obj_version o /\ obj_timestamp (with_endtime o e) = obj_timestamp o /\
  obj_endtime (with_endtime o e) = e.
Proof. destruct o; repeat split. Qed.

Lemma ends_app l1 o l2 : exists l1', ends (l1 ++ o :: l2) = l1' ++ ends (o :: l2) /\ List.length l1' = List.length l1.
Proof.
  induction l1 as [|a l1 (l1' & E & L)]; [exists []; auto|].
  cbn [app]. destruct l1 as [|b l1]; cbn [app] in *.
  - rewrite ends_cons2. eexists (_ :: []). split; reflexivity.
  - rewrite ends_cons2, E. eexists (_ :: l1'). split; [reflexivity|]. cbn in *; lia.
Qed.

(** in a history the directly following version stands next to it *)
Lemma hist_lt_trans a b c : hist_lt a b -> hist_lt b c -> hist_lt a c.
Proof.
  unfold hist_lt; intros [H|[H1 H2]] [K|[K1 K2]].
  - left; lia.
  - left; rewrite <- K1; auto.
  - left; rewrite H1; auto.
  - right; split; [congruence|lia].
Qed.
Lemma sorted_between A (R : A -> A -> Prop) l1 a l2 b l3 :
  StronglySorted R (l1 ++ a :: l2 ++ b :: l3) -> R a b /\ (forall x, In x l2 -> R a x /\ R x b).
Proof.
  intros H. assert (K : StronglySorted R (a :: l2 ++ b :: l3)).
  { induction l1; auto. inversion H; subst; auto. }
  inversion K as [|? ? K1 K2]; subst. split.
  - rewrite Forall_forall in K2. apply K2, in_or_app; right; left; auto.
  - intros x Hx. split; [rewrite Forall_forall in K2; apply K2, in_or_app; auto|].
    apply in_split in Hx as (m1 & m2 & ->). rewrite <- app_assoc in K1. cbn in K1.
    clear -K1. induction m1; cbn in K1; inversion K1; subst; auto.
    match goal with H : Forall _ _ |- _ => rewrite Forall_forall in H; apply H end.
    apply in_or_app; right; left; auto.
Qed.

Theorem following_version : forall os l1 o l2 n,
  history os -> os = l1 ++ o :: l2 -> In n l2 -> obj_id n = obj_id o ->
  (forall x, In x os -> obj_id x = obj_id o -> ~ (obj_version o < obj_version x < obj_version n)) ->
  nth_error (ends os) (List.length l1) = Some (with_endtime o (obj_timestamp n)).
Proof.
  intros os l1 o l2 n H -> Hn Hid B. apply in_split in Hn as (m1 & m2 & ->).
  assert (M : m1 = []).
  { destruct m1 as [|x m1]; auto. exfalso.
    destruct (sorted_between _ _ l1 o (x :: m1) n m2 H) as [_ K].
    destruct (K x (or_introl eq_refl)) as [K1 K2].
    assert (X : obj_id x = obj_id o).
    { destruct K1 as [K1|[K1 _]]; auto. destruct K2 as [K2|[K2 _]]; [|congruence]. rewrite Hid in K2. lia. }
    apply (B x); auto.
    - apply in_or_app; right; right; left; auto.
    - destruct K1 as [K1|[_ K1]]; [rewrite X in K1; lia|]. destruct K2 as [K2|[_ K2]]; [rewrite X, Hid in K2; lia|]. lia. }
  subst m1; cbn [app] in *. destruct (ends_app l1 o (n :: m2)) as (l1' & E & L).
  rewrite E, ends_cons2, <- L, nth_error_app2, Nat.sub_diag by lia. cbn. now rewrite Hid, Z.eqb_refl.
Qed.
Theorem last_version : forall os l1 o l2,
  history os -> os = l1 ++ o :: l2 -> (forall x, In x os -> obj_id x = obj_id o -> obj_version x <= obj_version o) ->
  nth_error (ends os) (List.length l1) = Some o.
Proof.
  intros os l1 o l2 H -> B. destruct (ends_app l1 o l2) as (l1' & E & L).
  rewrite E, <- L, nth_error_app2, Nat.sub_diag by lia.
  destruct l2 as [|n m2]; [reflexivity|]. rewrite ends_cons2; cbn.
  destruct (Z.eqb_spec (obj_id n) (obj_id o)) as [Hid|]; auto. exfalso.
  assert (Hn : In n (l1 ++ o :: n :: m2)) by (apply in_or_app; right; right; left; auto).
  specialize (B n Hn Hid). destruct (sorted_between _ _ l1 o [] n m2 H) as [[K|[_ K]] _]; [rewrite Hid in K|]; lia.
Qed.

(* ---- C24 ---- *)
Lemma range_run S (next : callback -> S -> S * option halt) from to cs s s' :
  takes next (filter (fun c => match c with CObj o => in_range_test from to o | _ => true end) cs) s s' ->
  takes (stacked next (range_prog from to)) cs (tt, s) (tt, s').
Proof.
  revert s; induction cs as [|c r IH]; intros s H.
  - apply takes_nil in H as ->. now apply takes_nil.
  - cbn [filter] in H. apply takes_cons.
    assert (K : (forall x, takes next (c :: x) s s' -> exists s1, next c s = (s1, None) /\ takes next x s1 s')).
    { intros x Hx. now apply takes_cons in Hx. }
    destruct c as [| | o | | |]; unfold stacked, range_prog; cbn [fst];
      try (apply K in H as (s1 & E & H); exists (tt, s1); split; [now rewrite (exec_call _ _ _ _ _ _ _ s1) by exact E|auto]).
    destruct (in_range_test from to o).
    + apply K in H as (s1 & E & H); exists (tt, s1); split; [now rewrite (exec_call _ _ _ _ _ _ _ s1) by exact E|auto].
    + exists (tt, s); split; auto.
Qed.

Lemma range_meaning from to o : from <= to -> (obj_endtime o = 0 \/ obj_timestamp o <= obj_endtime o) ->
  (in_range_test from to o = true <-> intersects from to o).
Proof.
  intros L V. unfold in_range_test, intersects. split.
  - intros H. exists (Z.max from (obj_timestamp o)). lia.
  - intros (t & H). lia.
Qed.


Theorem instant_meaning : forall os t l1 o l2 o',
  history os -> chronological os -> (forall x, In x os -> obj_endtime x = 0) ->
  os = l1 ++ o :: l2 -> nth_error (ends os) (List.length l1) = Some o' ->
  (in_range_test t t o' = true <-> current_at os t o \/ (obj_timestamp o <= t /\ obj_endtime o' = t)).
Proof.
  intros os t l1 o l2 o' H [C0 C] E0 E N.
  assert (Ho : In o os) by (rewrite E; apply in_or_app; right; left; auto).
  pose proof (C0 o Ho) as Pos.
  destruct l2 as [|n m2].
  - rewrite (last_version os l1 o [] H E) in N.
    2:{ intros x Hx Hid. rewrite E in Hx. apply in_app_or in Hx as [Hx|[<-|[]]]; [|lia].
        apply in_split in Hx as (a & b & ->). rewrite <- app_assoc in E; cbn in E. rewrite E in H.
        destruct (sorted_between _ _ a x b o [] H) as [[K|[_ K]] _]; [rewrite Hid in K|]; lia. }
    injection N as <-. unfold in_range_test, current_at. rewrite (E0 o Ho). split.
    + intros T. left. split; [lia|]. intros x Hx Hid Hv. exfalso. rewrite E in Hx.
      apply in_app_or in Hx as [Hx|[<-|[]]]; [|lia].
      apply in_split in Hx as (a & b & ->). rewrite <- app_assoc in E; cbn in E. rewrite E in H.
      destruct (sorted_between _ _ a x b o [] H) as [[K|[_ K]] _]; [rewrite Hid in K|]; lia.
    + intros [[T _]|[T Z]]; lia.
  - assert (Hn : In n os) by (rewrite E; apply in_or_app; right; right; left; auto).
    assert (Rn : hist_lt o n) by (rewrite E in H; exact (proj1 (sorted_between _ _ l1 o [] n m2 H))).
    destruct (Z.eq_dec (obj_id n) (obj_id o)) as [Hid|Hid].
    + assert (Vn : obj_version o < obj_version n) by (destruct Rn as [K|[_ K]]; [rewrite Hid in K|]; lia).
      assert (Min : forall x, In x os -> obj_id x = obj_id o -> obj_version o < obj_version x -> obj_version n <= obj_version x).
      { intros x Hx Hxid Hxv. rewrite E in Hx. apply in_app_or in Hx as [Hx|[<-|[<-|Hx]]]; try lia.
        - exfalso. apply in_split in Hx as (a & b & ->). rewrite <- app_assoc in E; cbn in E. rewrite E in H.
          destruct (sorted_between _ _ a x b o (n :: m2) H) as [[K|[_ K]] _]; [rewrite Hxid in K|]; lia.
        - apply in_split in Hx as (a & b & ->).
          assert (E1 : l1 ++ o :: n :: a ++ x :: b = (l1 ++ [o]) ++ n :: a ++ x :: b) by (rewrite <- app_assoc; reflexivity).
          rewrite E, E1 in H. destruct (sorted_between _ _ (l1 ++ [o]) n a x b H) as [[K|[_ K]] _]; [rewrite Hid, Hxid in K|]; lia. }
      rewrite (following_version os l1 o (n :: m2) n H E (or_introl eq_refl) Hid) in N.
      2:{ intros x Hx Hxid [A B]. specialize (Min x Hx Hxid A). lia. }
      injection N as <-. destruct (with_endtime_fields o (obj_timestamp n)) as (_ & _ & _ & F1 & F2).
      unfold in_range_test, current_at. rewrite F1, F2. pose proof (C0 n Hn) as Pn. split.
      * intros T. destruct (Z.eq_dec (obj_timestamp n) t) as [Et|Et]; [right; lia|left]. split; [lia|].
        intros x Hx Hxid Hxv. specialize (Min x Hx Hxid Hxv).
        assert (obj_timestamp n <= obj_timestamp x).
        { destruct (Z.eq_dec (obj_version n) (obj_version x)) as [Ev|Ev].
          - assert (n = x); [|subst; lia]. rewrite E in Hx.
            apply in_app_or in Hx as [Hx|[<-|[<-|Hx]]]; try lia; auto.
            + exfalso. apply in_split in Hx as (a & b & ->). rewrite <- app_assoc in E; cbn in E. rewrite E in H.
              destruct (sorted_between _ _ a x b o (n :: m2) H) as [[K|[_ K]] _]; [rewrite Hxid in K|]; lia.
            + exfalso. apply in_split in Hx as (a & b & ->).
              assert (E1 : l1 ++ o :: n :: a ++ x :: b = (l1 ++ [o]) ++ n :: a ++ x :: b) by (rewrite <- app_assoc; reflexivity).
              rewrite E, E1 in H. destruct (sorted_between _ _ (l1 ++ [o]) n a x b H) as [[K|[_ K]] _]; [rewrite Hid, Hxid in K|]; lia.
          - apply C; auto; [congruence|lia]. }
        lia.
      * intros [[T1 T2]|[T1 T2]]; [|lia]. specialize (T2 n Hn Hid Vn). lia.
    + rewrite (last_version os l1 o (n :: m2) H E) in N.
      2:{ intros x Hx Hxid. rewrite E in Hx. apply in_app_or in Hx as [Hx|[<-|Hx]]; [|lia|].
          - apply in_split in Hx as (a & b & ->). rewrite <- app_assoc in E; cbn in E. rewrite E in H.
            destruct (sorted_between _ _ a x b o (n :: m2) H) as [[K|[_ K]] _]; [rewrite Hxid in K|]; lia.
          - exfalso. destruct Hx as [<-|Hx]; [congruence|].
            apply in_split in Hx as (a & b & ->). rewrite E in H.
            destruct (sorted_between _ _ l1 o (n :: a) x b H) as [_ K]. destruct (K n (or_introl eq_refl)) as [K1 K2].
            destruct K1 as [K1|[K1 _]]; [|congruence]. destruct K2 as [K2|[K2 _]]; [rewrite Hxid in K2; lia|congruence]. }
      injection N as <-. unfold in_range_test, current_at. rewrite (E0 o Ho). split.
      * intros T. left. split; [lia|]. intros x Hx Hxid Hv. exfalso. rewrite E in Hx. apply in_app_or in Hx as [Hx|[<-|Hx]]; [|lia|].
        -- apply in_split in Hx as (a & b & ->). rewrite <- app_assoc in E; cbn in E. rewrite E in H.
           destruct (sorted_between _ _ a x b o (n :: m2) H) as [[K|[_ K]] _]; [rewrite Hxid in K|]; lia.
        -- destruct Hx as [<-|Hx]; [congruence|].
           apply in_split in Hx as (a & b & ->). rewrite E in H.
           destruct (sorted_between _ _ l1 o (n :: a) x b H) as [_ K]. destruct (K n (or_introl eq_refl)) as [K1 K2].
           destruct K1 as [K1|[K1 _]]; [|congruence]. destruct K2 as [K2|[K2 _]]; [rewrite Hxid in K2; lia|congruence].
      * intros [[T _]|[T Z]]; lia.
Qed.

(* ---- C25 ---- *)
Section Cfw.
  Context {P N : Type}.
  Variable pset : Z -> position -> P -> outcome P.
  Variable pget : Z -> P -> outcome position.
  Variable nset : Z -> position -> N -> outcome N.
  Variable nget : Z -> N -> outcome position.
  Variables (p0 : P) (n0 : N) (dflt : position) (domp domn : Z -> Prop).


  Lemma last_pos_snoc seen o id : last_pos (seen ++ [o]) id = node_pos1 id (last_pos seen id) o.
  Proof. unfold last_pos. now rewrite fold_left_app. Qed.

  Theorem cfw_correct : store_works pset pget p0 dflt domp -> store_works nset nget n0 dflt domn ->
    forall os, (forall o id, In o os -> In id (used_ids o) -> id_ok domp domn id) ->
    exists st, cfw_run pset pget nset nget os (p0, n0) = Ok (located_stream [] os dflt, st).
  Proof.
    intros (Rp & Rp0 & Rps & Rpg) (Rn & Rn0 & Rns & Rng) os.
    assert (G : forall os seen p n hp hn,
      Rp hp p -> Rn hn n ->
      (forall id, 0 <= id -> option_map snd (find (fun x => fst x =? id) (rev hp)) = last_pos seen id) ->
      (forall id, id < 0 -> option_map snd (find (fun x => fst x =? - id) (rev hn)) = last_pos seen id) ->
      (forall o id, In o os -> In id (used_ids o) -> id_ok domp domn id) ->
      exists st, cfw_run pset pget nset nget os (p, n) = Ok (located_stream seen os dflt, st)).
    2:{ intros D. apply (G os [] p0 n0 [] []); auto. }
    clear os. induction os as [|o r IH]; intros seen p n hp hn HP HN FP FN D.
    { cbn. eauto. }
    assert (Dr : forall o id, In o r -> In id (used_ids o) -> id_ok domp domn id) by (intros; eapply D; eauto; right; auto).
    cbn [cfw_run located_stream]. destruct o as [nd|w|rel]; cbn [cfw_step].
    - set (id := o_id (n_attrs nd)). destruct (D (ONode nd) id (or_introl eq_refl) (or_introl eq_refl)) as [D1 D2].
      unfold cfw_node. fold id. destruct (id >=? 0) eqn:S.
      + assert (S' : 0 <= id) by lia. destruct (Rps _ _ id (n_pos nd) HP (D1 S')) as (p' & E & HP').
        cbn [fst snd]. rewrite E; cbn [obind fst snd].
        destruct (IH (seen ++ [ONode nd]) p' n (hp ++ [(id, n_pos nd)]) hn) as (st & ->); auto.
        * intros i Hi. rewrite rev_app_distr, last_pos_snoc; cbn. fold id.
          destruct (id =? i); [reflexivity|]. rewrite <- FP by auto. reflexivity.
        * intros i Hi. rewrite last_pos_snoc; cbn. fold id. destruct (Z.eqb_spec id i); [lia|]. auto.
        * cbn. eauto.
      + assert (S' : id < 0) by lia. destruct (D2 S') as [D3 D4]. destruct (Rns _ _ (- id) (n_pos nd) HN D4) as (n' & E & HN').
        cbn [fst snd]. unfold neg64. destruct (Z.eqb_spec id int64_min); [congruence|]. cbn [obind fst snd].
        rewrite E; cbn [obind fst snd].
        destruct (IH (seen ++ [ONode nd]) p n' hp (hn ++ [(- id, n_pos nd)])) as (st & ->); auto.
        * intros i Hi. rewrite last_pos_snoc; cbn. fold id. destruct (Z.eqb_spec id i); [lia|]. auto.
        * intros i Hi. rewrite rev_app_distr, last_pos_snoc; cbn. fold id.
          destruct (Z.eqb_spec (- id) (- i)); destruct (Z.eqb_spec id i); try lia; [reflexivity|].
          rewrite <- FN by auto. reflexivity.
        * cbn. eauto.
    - assert (Dw : forall x, In x (w_nodes w) -> id_ok domp domn (wn_ref x)).
      { intros x Hx. apply (D (OWay w)); [left; auto|]. cbn. now apply in_map. }
      assert (C : cfw_nodes pget nget (w_nodes w) (p, n) =
        Ok (map (fun n => mkWN (wn_ref n) (match last_pos seen (wn_ref n) with Some p => p | None => dflt end)) (w_nodes w))).
      { induction (w_nodes w) as [|x xs IHx]; [reflexivity|].
        assert (K : cfw_pos pget nget (wn_ref x) (p, n) = Ok (match last_pos seen (wn_ref x) with Some p => p | None => dflt end)).
        { destruct (Dw x (or_introl eq_refl)) as [D1 D2]. unfold cfw_pos.
          destruct (wn_ref x >=? 0) eqn:S.
          - assert (S' : 0 <= wn_ref x) by lia. cbn [fst]. rewrite (Rpg _ _ _ HP (D1 S')), <- (FP _ S').
            destruct (find _ (rev hp)); reflexivity.
          - assert (S' : wn_ref x < 0) by lia. destruct (D2 S') as [D3 D4]. unfold neg64.
            destruct (Z.eqb_spec (wn_ref x) int64_min); [congruence|]. cbn [obind snd].
            rewrite (Rng _ _ _ HN D4), <- (FN _ S'). destruct (find _ (rev hn)); reflexivity. }
        cbn [cfw_nodes map]. rewrite K; cbn [obind]. rewrite IHx; [reflexivity|].
        intros y Hy; apply Dw; right; auto. }
      rewrite C; cbn [obind fst snd].
      destruct (IH (seen ++ [OWay w]) p n hp hn) as (st & ->); auto;
        try (intros i Hi; rewrite last_pos_snoc; cbn; auto).
      cbn. eauto.
    - cbn [obind fst snd].
      destruct (IH (seen ++ [ORel rel]) p n hp hn) as (st & ->); auto;
        try (intros i Hi; rewrite last_pos_snoc; cbn; auto).
      cbn. eauto.
  Qed.
End Cfw.

Lemma sparse_works grow : 0 < grow ->
  store_works (sp_set (V := position)) (sp_get undef_pos) (sp_new grow) undef_pos
    (fun id => 0 <= id /\ id + grow < 18446744073709551616).
Proof.
  intros G. set (dom := fun id => 0 <= id /\ id + grow < 18446744073709551616).
  set (ops := fun h : list (Z * position) => map (fun x => SSet (fst x) (snd x) true) h).
  assert (IDS : forall h, set_ids (ops h) = map fst h).
  { unfold set_ids, ops. induction h as [|[i v] h IH]; cbn; auto. now rewrite IH. }
  assert (LS : forall h id, last_set (ops h) id = option_map snd (find (fun x => fst x =? id) (rev h))).
  { intros h id. unfold last_set. induction h as [|x h IH] using rev_ind; [reflexivity|].
    unfold ops in *. rewrite map_app, fold_left_app, rev_app_distr; cbn.
    destruct (fst x =? id); cbn; auto. }
  exists (fun h s => run sp_op (ops h) (Ok (sp_new grow)) = Ok s /\ forall id, In id (map fst h) -> dom id).
  split; [|split].
  - split; [reflexivity|]. intros id [].
  - intros h s id p [R D] Hid. pose (h' := h ++ [(id, p)]).
    assert (D' : forall i, In i (map fst h') -> dom i).
    { unfold h'. rewrite map_app. intros i Hi. apply in_app_or in Hi as [Hi|[<-|[]]]; auto. }
    destruct (sp_main undef_pos grow (ops h') G) as (s' & R' & _).
    { rewrite IDS. exact D'. }
    exists s'. split; [|split; auto].
    unfold h', ops in R'. rewrite map_app in R'. unfold run in *. rewrite fold_left_app in R'. cbn in R'.
    fold (ops h) in R'. rewrite R in R'. exact R'.
  - intros h s id [R D] Hid. destruct (sp_main undef_pos grow (ops h) G) as (s' & R' & Get).
    { rewrite IDS. exact D. }
    rewrite R in R'. injection R' as <-. rewrite Get by apply Hid. rewrite LS.
    destruct (find _ (rev h)); reflexivity.
Qed.

(* ---- C26 ---- *)
Lemma find_bbox_objs ns b : (forall o, In o ns -> obj_type o = NODE) ->
  takes find_bbox (map CObj ns) b (fold_left bounds_extend (node_positions ns) b).
Proof.
  revert b; induction ns as [|o r IH]; intros b H; [now apply takes_nil|].
  cbn [map]. apply takes_cons. pose proof (H o (or_introl eq_refl)) as Ho. destruct o as [n|w|rl]; try discriminate.
  exists (bounds_extend b (n_pos n)). split; [reflexivity|]. cbn. apply IH. intros; apply H; right; auto.
Qed.
Theorem find_bbox_reads : forall gs ns rest, (forall g, In g gs -> well_typed g) ->
  join gs = (NODE, ns) :: rest ->
  observe (parse find_bbox gs None bounds_new) =
  (CInit :: bracket (NODE, ns) ++ [CFinal], fold_left bounds_extend (node_positions ns) bounds_new, None).
Proof.
  intros gs ns rest W J.
  assert (N : gs <> []) by (intros ->; discriminate).
  assert (T : forall o, In o ns -> obj_type o = NODE).
  { pose proof (join_well_typed gs W (NODE, ns)) as K. rewrite J in K. exact (proj2 (K (or_introl eq_refl))). }
  assert (E : protocol gs = (CInit :: CBefore NODE :: map CObj ns) ++ CAfter NODE :: flat_map bracket rest).
  { unfold protocol. rewrite J. cbn. now rewrite <- app_assoc. }
  rewrite (stop_at _ find_bbox gs bounds_new _ _ _ (fold_left bounds_extend (node_positions ns) bounds_new)
             (fold_left bounds_extend (node_positions ns) bounds_new) N W E); [| |reflexivity].
  - cbn. now rewrite <- app_assoc.
  - apply takes_cons. eexists; split; [reflexivity|]. apply takes_cons. eexists; split; [reflexivity|]. apply find_bbox_objs; auto.
Qed.
Lemma find_bbox_box : forall gs ns rest, (forall g, In g gs -> well_typed g) ->
  join gs = (NODE, ns) :: rest -> ns <> [] -> (forall p, In p (node_positions ns) -> located p) ->
  is_bbox (node_positions ns) (r_handler (fst (parse find_bbox gs None bounds_new))).
Proof.
  intros gs ns rest W J N Lo. pose proof (find_bbox_reads gs ns rest W J) as E. unfold observe in E.
  injection E as _ E _. rewrite E. apply bounds_fold_bbox; auto.
  destruct ns as [|o ns]; [congruence|].
  pose proof (join_well_typed gs W (NODE, o :: ns)) as K. rewrite J in K. destruct (K (or_introl eq_refl)) as [_ T]. cbn in T.
  specialize (T o (or_introl eq_refl)). destruct o; cbn in *; try discriminate.
Qed.
Lemma read_error : forall S (step : callback -> S -> S * option halt) gs e s s',
  gs <> [] -> (forall g, In g gs -> well_typed g) -> e <> EStopReading ->
  takes step (protocol_open gs) s s' ->
  observe (parse step gs (Some e) s) = (protocol_open gs, s', Some (HExn e)).
Proof. intros S step gs e s s' N W Ne T. rewrite parse_error_refines by auto. now rewrite T. Qed.
