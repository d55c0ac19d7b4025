(** Proofs about the export to PostGIS: the whole program. *)
From Verif Require Import Base.Prelude Base.Decimal Model.Osm Model.Float Model.Geom Model.Area Model.Tags Model.Handler Model.Convert Model.Ogr
  Spec.OsmSpec Spec.TimeSpec Spec.TagsSpec Spec.HandlerSpec Spec.ToshapeSpec Spec.OgrSpec
  Proofs.HandlerProofs Proofs.Handler2Proofs Proofs.ToshapeProofs Proofs.OgrProofs.
Local Open Scope Z_scope.

Lemma no_nodes_rows l rs : (forall n, ~ In (ONode n) l) -> exported tagged_node node_feature l rs -> rs = [].
Proof.
  intros H E. induction E as [|a l r rs S O E IH|a l rs S E IH]; [reflexivity| |].
  - destruct S as (n & t & -> & _). destruct (H n). left. reflexivity.
  - apply IH. intros n I. apply (H n). right. exact I.
Qed.
Lemma no_nodes_exported l : (forall n, ~ In (ONode n) l) -> exported tagged_node node_feature l [].
Proof.
  induction l as [|o l IH]; intros H; [constructor|]. apply exp_skip; [|apply IH; intros n I; apply (H n); right; exact I].
  intros (n & t & -> & _). apply (H n). left. reflexivity.
Qed.
Lemma objects_bracket g : objects_in (bracket g) = snd g.
Proof.
  unfold bracket, objects_in. cbn [flat_map app]. rewrite flat_map_app. cbn [flat_map app]. rewrite app_nil_r.
  induction (snd g) as [|o l IH]; [reflexivity|]. cbn [map flat_map app]. rewrite IH. reflexivity.
Qed.
Lemma objects_brackets gs : objects_in (flat_map bracket gs) = flat_map snd gs.
Proof. induction gs as [|g gs IH]; [reflexivity|]. cbn [flat_map]. rewrite objects_app, objects_bracket, IH. reflexivity. Qed.
Lemma objects_protocol gs : objects_in (protocol gs) = flat_map snd gs.
Proof. unfold protocol. change (objects_in (flat_map bracket (join gs)) = flat_map snd gs). rewrite objects_brackets. apply join_objects. Qed.
Lemma after_in_brackets t gs : In (CAfter t) (flat_map bracket gs) -> exists os, In (t, os) gs.
Proof.
  intros H. apply in_flat_map in H as (g & I & H). unfold bracket in H. destruct H as [H|H]; [discriminate|]. apply in_app_iff in H as [H|[H|[]]].
  - apply in_map_iff in H as (o & X & _). discriminate.
  - injection H as <-. exists (snd g). destruct g. exact I.
Qed.
Lemma node_in_brackets gs n : (forall g, In g gs -> well_typed g) -> In (ONode n) (flat_map snd gs) -> exists os, In (NODE, os) gs.
Proof.
  intros W H. apply in_flat_map in H as (g & I & H). destruct (W g I) as [_ T]. specialize (T _ H). cbn in T. exists (snd g). rewrite T. destruct g. exact I.
Qed.
Lemma first_unique {A} (x : A) p q p' q' : p ++ x :: q = p' ++ x :: q' -> ~ In x p -> ~ In x p' -> p = p' /\ q = q'.
Proof.
  revert p'. induction p as [|a p IH]; intros [|b p'] E N N'; cbn in E.
  - injection E as <-. auto.
  - injection E as <- _. destruct N'. left. reflexivity.
  - injection E as -> _. destruct N. left. reflexivity.
  - injection E as <- E. destruct (IH p' E) as [-> ->]; [intros I; apply N; right; exact I|intros I; apply N'; right; exact I|]. auto.
Qed.
(** the end of the nodes *)
Lemma after_nodes_once gs p q : (forall g, In g gs -> well_typed g) -> nodes_together gs -> protocol gs = p ++ CAfter NODE :: q -> ~ In (CAfter NODE) p ->
  ~ In (CAfter NODE) q /\ (forall n, ~ In (ONode n) (objects_in q)).
Proof.
  intros W T E Np.
  assert (I : In (CAfter NODE) (flat_map bracket (join gs))).
  { assert (I : In (CAfter NODE) (protocol gs)) by (rewrite E; apply in_app_iff; right; left; reflexivity). destruct I as [I|I]; [discriminate|exact I]. }
  apply after_in_brackets in I as [ns I]. apply in_split in I as (before & rest & J).
  assert (E2 : protocol gs = (CInit :: flat_map bracket before ++ CBefore NODE :: map CObj ns) ++ CAfter NODE :: flat_map bracket rest).
  { unfold protocol. rewrite J, flat_map_app. cbn [flat_map]. unfold bracket at 2. cbn [fst snd app]. rewrite <- !app_assoc. reflexivity. }
  rewrite E in E2. apply first_unique in E2 as [_ ->]; [|exact Np|].
  - pose proof (join_well_typed gs W) as Wj. rewrite J in Wj.
    assert (Nr : forall os, ~ In (NODE, os) rest).
    { intros os I. apply (T before ns rest (NODE, os) J); [apply in_app_iff; right; exact I|reflexivity]. }
    split.
    + intros I. apply after_in_brackets in I as [os I]. exact (Nr os I).
    + intros n I. rewrite objects_brackets in I. apply node_in_brackets in I as [os I]; [exact (Nr os I)|]. intros g G. apply Wj. apply in_app_iff. right. right. exact G.
  - intros [I|I]; [discriminate|]. apply in_app_iff in I as [I|[I|I]]; [|discriminate|apply in_map_iff in I as (o & X & _); discriminate].
    apply after_in_brackets in I as [os I]. apply (T before ns rest (NODE, os) J); [apply in_app_iff; left; exact I|reflexivity].
Qed.

Section Program.
  Variable lib : nat -> bool.
  Variable gs : list (otype * list object).
  Hypothesis W : forall g, In g gs -> well_typed g.
  Hypothesis Cl : Forall clean_tags (flat_map snd gs).

  Lemma calls_clean p q : protocol gs = p ++ q -> Forall clean_call p.
  Proof.
    intros E. apply Forall_forall. intros c I. destruct c as [|t|o|t|a|]; try exact Logic.I. cbn.
    assert (Q : In o (flat_map snd gs)).
    { rewrite <- objects_protocol, E, objects_app. apply in_app_iff. left. unfold objects_in. apply in_flat_map. exists (CObj o). split; [exact I|left; reflexivity]. }
    rewrite Forall_forall in Cl. exact (Cl o Q).
  Qed.
  Lemma fine_takes p : forall tr s s', Forall clean_call p -> fine tr s -> takes (postgis lib) p s s' -> fine (tr ++ p) s'.
  Proof.
    induction p as [|c p IH]; intros tr s s' C F T; [apply takes_nil in T; subst; rewrite app_nil_r; exact F|].
    apply takes_cons in T as (s1 & E & T). inversion C as [|? ? C1 C2]; subst. destruct (fine_step lib _ _ _ _ _ F C1 E) as [[_ G]|[X _]]; [|discriminate X].
    specialize (IH _ _ _ C2 G T). rewrite <- app_assoc in IH. exact IH.
  Qed.
  (** how the reading goes *)
  Lemma postgis_reads : gs <> [] ->
    (exists s, takes (postgis lib) (protocol gs) pg_new s /\ fine (protocol gs) s /\ input_read (postgis lib) (gs, Ok tt) pg_new = (s, None, true)) \/
    (exists s k, lib k = false /\ input_read (postgis lib) (gs, Ok tt) pg_new = (s, Some (HExn EExit), false)).
  Proof.
    intros N. destruct (feed_split _ (postgis lib) (protocol gs) pg_new) as [T|(p & c & q & s1 & s2 & h & E & T & S)].
    - left. set (s := snd (fst (feed (postgis lib) (protocol gs) pg_new))) in T. exists s. split; [exact T|].
      split; [apply (fine_takes _ [] pg_new s); [apply (calls_clean _ []); rewrite app_nil_r; reflexivity|apply fine_new|exact T]|].
      pose proof (no_throw _ (postgis lib) gs pg_new s N W T) as O. unfold observe in O. cbn [postgis fst snd] in O. unfold input_read. cbn [fst snd].
      destruct (parse (postgis lib) gs None pg_new) as [st h]. cbn [fst snd] in O. injection O as _ -> ->. reflexivity.
    - right. assert (C : Forall clean_call (p ++ [c])) by (apply (calls_clean _ q); rewrite <- app_assoc; exact E). apply Forall_app in C as [C1 C2]. inversion C2 as [|? ? C3 _]; subst.
      pose proof (fine_takes p [] pg_new s1 C1 fine_new T) as F. destruct (fine_step lib _ _ _ _ _ F C3 S) as [[X _]|(X & [k K] & _)]; [discriminate X|]. injection X as ->.
      exists s2, k. split; [exact K|].
      pose proof (throw_at _ (postgis lib) gs pg_new p c q s1 s2 _ N W E T S ltac:(discriminate)) as O. unfold observe in O. unfold input_read. cbn [fst snd].
      destruct (parse (postgis lib) gs None pg_new) as [st h]. cbn [fst snd] in O. injection O as _ -> ->. reflexivity.
  Qed.
  Lemma fine_table s commits : fine (protocol gs) s ->
    exported tagged_node node_feature (flat_map snd gs) (if pg_open s && negb commits then pg_table s else pg_table s ++ pg_pending s).
  Proof.
    intros F. destruct F as [(O & N & T & X)|(O & p & q & a & b & E & N & X & T & X2 & B)]; rewrite O; cbn [andb].
    - rewrite objects_protocol in X. assert (Nn : forall n, ~ In (ONode n) (flat_map snd gs)).
      { intros n I. rewrite <- join_objects in I. apply node_in_brackets in I as [os I]; [|exact (join_well_typed gs W)]. apply N. unfold protocol. right.
        apply in_flat_map. exists (NODE, os). split; [exact I|]. unfold bracket. right. apply in_app_iff. right. left. reflexivity. }
      pose proof (no_nodes_rows _ _ Nn X) as ->. rewrite T. destruct (negb commits); apply no_nodes_exported; exact Nn.
    - rewrite T, <- app_assoc. rewrite <- objects_protocol, E, objects_app. apply exported_app; [exact X|].
      change (objects_in (CAfter NODE :: q)) with (objects_in q). exact X2.
  Qed.
  Lemma postgis_complete commits table h : to_postgis lib commits (gs, Ok tt) = (table, h) ->
    (h = None /\ exported tagged_node node_feature (flat_map snd gs) table) \/ (h = Some (HExn EExit) /\ exists k, lib k = false).
  Proof.
    unfold to_postgis. intros E. assert (D : gs = [] \/ gs <> []) by (destruct gs; [left; reflexivity|right; discriminate]). destruct D as [G|N].
    - rewrite G in E |- *. cbn in E. destruct commits; injection E as <- <-; left; (split; [reflexivity|constructor]).
    - destruct (postgis_reads N) as [(s & T & F & R)|(s & k & K & R)]; rewrite R in E; injection E as <- <-; [left|right; eauto].
      split; [reflexivity|]. apply fine_table. exact F.
  Qed.

  Lemma postgis_atomic commits e table h : nodes_together gs -> (e = Ok tt \/ exists x, e = Throw x /\ x <> EStopReading) ->
    to_postgis lib commits (gs, e) = (table, h) -> table = [] \/ exported tagged_node node_feature (flat_map snd gs) table.
  Proof.
    intros Tg He E.
    destruct h as [h|].
    2:{ destruct He as [->|(x & -> & Ne)].
        - destruct (postgis_complete _ _ _ E) as [[_ X]|[X _]]; [right; exact X|discriminate X].
        - exfalso. unfold to_postgis, input_read in E. cbn [fst snd] in E. unfold parse in E.
          pose proof (good_groups lib gs Cl (mkR UNKNOWN pg_new []) fine_new) as G.
          destruct (read_groups (postgis lib) gs (mkR UNKNOWN pg_new [])) as [st [y|]]; cbn [andthen] in E.
          + destruct G as [Ny _]. cbn [snd] in Ny. destruct y as [[]|]; try discriminate E. destruct (Ny eq_refl).
          + destruct x; try discriminate E. destruct (Ne eq_refl). }
    set (tail := match e with Throw x => Some x | _ => None end).
    assert (P : exists st, parse (postgis lib) gs tail pg_new = (st, Some h) /\ table = pg_table (r_handler st)).
    { unfold to_postgis, input_read in E. cbn [fst snd] in E. destruct He as [->|(x & -> & Ne)]; unfold tail;
        destruct (parse (postgis lib) gs _ pg_new) as [st h']; injection E as <- ->; exists st; auto. }
    destruct P as (st & P & ->).
    assert (G : ended_ok (r_trace st) (r_handler st)).
    { assert (G : good (parse (postgis lib) gs tail pg_new)).
      { unfold parse. pose proof (good_groups lib gs Cl (mkR UNKNOWN pg_new []) fine_new) as G.
        assert (G2 : good (andthen (read_groups (postgis lib) gs (mkR UNKNOWN pg_new [])) (fun st0 => match tail with None => call_after_and_before (postgis lib) UNKNOWN st0 | Some e0 => (st0, Some (HExn e0)) end))).
        { apply good_then; [exact G|]. intros st0 F0. unfold tail. destruct He as [->|(x & -> & Ne)]; [apply good_switch; exact F0|].
          split; [cbn [snd]; congruence|apply fine_ended; exact F0]. }
        destruct (andthen _ _) as [st1 [y|]]; [destruct y as [[]|]; try exact G2; destruct (proj1 G2 eq_refl)|]. apply good_call; [exact G2|exact Logic.I]. }
      rewrite P in G. exact (proj2 G). }
    destruct G as [T|(p & q & a & b & Et & Np & X & T & B)]; [left; exact T|right].
    destruct (trace_shape _ (postgis lib) gs tail pg_new (r_trace st) (r_handler st) (Some h) W) as (p1 & q1 & P1 & P0 & Q); [unfold observe; rewrite P; reflexivity|].
    assert (Sp : exists q2, p1 = p ++ CAfter NODE :: q2 /\ (In (CAfter NODE) q -> In (CAfter NODE) q2)).
    { destruct Q as [Q|[Q _]]; [|exists q; split; [rewrite <- Q; exact Et|auto]]. rewrite Q in Et. clear - Et.
      destruct (exists_last (l := CAfter NODE :: q) ltac:(discriminate)) as [l' [z Ez]]. rewrite Ez, app_assoc in Et. apply app_inj_tail in Et as [-> Ez'].
      destruct l' as [|c l']; cbn in Ez; [injection Ez; intros _ Z; rewrite <- Ez' in Z; discriminate|]. injection Ez as <- Ez. exists l'. split; [reflexivity|].
      intros I. rewrite Ez in I. apply in_app_iff in I as [I|[I|[]]]; [exact I|]. rewrite <- Ez' in I. discriminate I. }
    destruct Sp as (q2 & E2 & I2).
    assert (N : gs <> []). { intros Z. rewrite (P0 Z) in E2. destruct p; discriminate E2. }
    specialize (P1 N). rewrite E2, <- app_assoc in P1. cbn [app] in P1.
    destruct (after_nodes_once gs p (q2 ++ q1) W Tg P1 Np) as [Nq Nn].
    assert (b = []) as ->. { apply B. intros I. apply Nq. apply in_app_iff. left. apply I2. exact I. }
    rewrite T. rewrite <- objects_protocol, P1, objects_app. apply exported_app; [exact X|].
    change (objects_in (CAfter NODE :: q2 ++ q1)) with (objects_in (q2 ++ q1)). apply no_nodes_exported. exact Nn.
  Qed.
End Program.
