(** Proofs about handlers and the reader protocol. *)
From Verif Require Import Base.Prelude Model.Osm Model.Handler Spec.OsmSpec Spec.HandlerSpec Proofs.OsmProofs.

Definition close (t : otype) : list callback := match t with UNKNOWN => [CInit] | t => [CAfter t] end.
Definition opening (t : otype) : list callback := match t with UNKNOWN => [] | t => [CBefore t] end.

Section Feed.
  Context {S : Type}.
  Variable step : callback -> S -> S * option halt.

  Lemma feed_app cs1 cs2 s :
    feed step (cs1 ++ cs2) s =
    match feed step cs1 s with
    | (m, s', None) => let '(m2, s2, h) := feed step cs2 s' in (m ++ m2, s2, h)
    | (m, s', Some h) => (m, s', Some h)
    end.
  Proof.
    revert s; induction cs1 as [|c r IH]; intros s; cbn.
    - destruct (feed step cs2 s) as [[m s'] h]; reflexivity.
    - destruct (step c s) as [s' [h|]]; [reflexivity|]. rewrite IH.
      destruct (feed step r s') as [[m s1] [h|]]; [reflexivity|].
      destruct (feed step cs2 s1) as [[m2 s2] h]; reflexivity.
  Qed.

  Lemma feed_none cs s m s' : feed step cs s = (m, s', None) -> m = cs.
  Proof.
    revert s m; induction cs as [|c r IH]; intros s m; cbn; [congruence|].
    destruct (step c s) as [s1 [h|]]; [discriminate|].
    destruct (feed step r s1) as [[m1 s2] h1] eqn:E. intros E1; injection E1 as E1 E2 E3; subst.
    f_equal; eauto.
  Qed.

  Lemma feed_prefix cs s m s' h : feed step cs s = (m, s', h) -> exists q, cs = m ++ q.
  Proof.
    revert s m; induction cs as [|c r IH]; intros s m; cbn.
    - intros E; injection E as <- _ _. exists []; reflexivity.
    - destruct (step c s) as [s1 [h1|]].
      + intros E; injection E as <- _ _. exists r; reflexivity.
      + destruct (feed step r s1) as [[m1 s2] h2] eqn:E. intros E1; injection E1 as E1 E2 E3; subst.
        destruct (IH _ _ E) as [q ->]. exists q; reflexivity.
  Qed.

  Lemma feed_at p c q s s1 : takes step p s s1 ->
    forall s2 h, step c s1 = (s2, Some h) -> feed step (p ++ c :: q) s = (p ++ [c], s2, Some h).
  Proof.
    unfold takes; intros T s2 h E. rewrite feed_app, T; cbn. rewrite E. reflexivity.
  Qed.

  (* ---- the reader refines feed ---- *)
  Notation st := (rstate S).
  (** running [f] from [x] is feeding [cs] *)
  Definition simulates (f : st -> st * option halt) (last' : option otype) (cs : list callback) (x : st) : Prop :=
    let '(m, s', h) := feed step cs (r_handler x) in
    r_trace (fst (f x)) = r_trace x ++ m /\ r_handler (fst (f x)) = s' /\ snd (f x) = h /\
    (h = None -> forall t, last' = Some t -> r_last (fst (f x)) = t).

  Lemma sim_call c x t : r_last x = t -> simulates (call step c) (Some t) [c] x.
  Proof.
    intros L; unfold simulates, call; cbn. destruct (step c (r_handler x)) as [s' [h|]]; cbn;
      repeat split; auto; intros; congruence.
  Qed.

  Lemma sim_weaken f l cs x : simulates f l cs x -> simulates f None cs x.
  Proof.
    unfold simulates. destruct (feed step cs (r_handler x)) as [[m s'] h]. intros (A & B & C & D).
    repeat split; auto; intros; discriminate.
  Qed.

  Lemma sim_andthen f g l1 l2 c1 c2 x :
    simulates f l1 c1 x ->
    (forall y, (forall t, l1 = Some t -> r_last y = t) -> simulates g l2 c2 y) ->
    simulates (fun y => andthen (f y) g) l2 (c1 ++ c2) x.
  Proof.
    intros F G; unfold simulates in *. rewrite feed_app.
    destruct (feed step c1 (r_handler x)) as [[m s'] h]. destruct F as (F1 & F2 & F3 & F4).
    destruct (f x) as [y r]; cbn in *; subst.
    destruct h as [h|]; cbn; [repeat split; auto; discriminate|].
    specialize (G y ltac:(intros; apply F4; auto)).
    destruct (feed step c2 (r_handler y)) as [[m2 s2] h2].
    destruct G as (G1 & G2 & G3 & G4). repeat split; auto.
    now rewrite G1, F1, app_assoc.
  Qed.

  Definition switch (last t : otype) : list callback :=
    if otype_eqb t last then [] else
    close last ++ opening t.

  Lemma otype_eqb_spec a b : otype_eqb a b = true <-> a = b.
  Proof. destruct a, b; cbn; intuition congruence. Qed.
  Lemma otype_eqb_refl a : otype_eqb a a = true.
  Proof. destruct a; reflexivity. Qed.

  Lemma sim_switch t x : t <> AREA -> r_last x <> AREA ->
    simulates (call_after_and_before step t) (Some t) (switch (r_last x) t) x.
  Proof.
    intros Ht Hx. unfold switch.
    destruct (otype_eqb t (r_last x)) eqn:E.
    - unfold simulates, call_after_and_before; cbn. rewrite E; cbn. apply otype_eqb_spec in E.
      rewrite app_nil_r; repeat split; auto. intros _ t0 [= <-]; auto.
    - set (post := fun y : st => (mkR t (r_handler y) (r_trace y), @None halt)).
      set (f := fun x => andthen (call_after step x) (fun st1 => andthen (call_before step t st1) post)).
      assert (Hf : simulates f (Some t)
        (close (r_last x) ++ opening t) x).
      { apply sim_andthen with (l1 := Some (r_last x)).
        - pose proof (fun c => sim_call c x (r_last x) eq_refl) as H.
          unfold simulates, call_after in *. destruct (r_last x); try apply H; congruence.
        - intros y _. rewrite <- (app_nil_r (opening t)).
          apply sim_andthen with (l1 := None).
          + pose proof (fun c => sim_call c y (r_last y) eq_refl) as H.
            destruct t; try congruence.
            * unfold simulates; cbn. rewrite app_nil_r; repeat split; auto; intros; discriminate.
            * exact (sim_weaken _ _ _ _ (H (CBefore NODE))).
            * exact (sim_weaken _ _ _ _ (H (CBefore WAY))).
            * exact (sim_weaken _ _ _ _ (H (CBefore RELATION))).
          + intros z _. unfold simulates, post; cbn. rewrite app_nil_r; repeat split; auto.
            intros _ t0 [= <-]; reflexivity. }
      unfold simulates in *. unfold call_after_and_before. rewrite E; cbn [negb]. exact Hf.
  Qed.

  Lemma sim_objects os x t : r_last x = t -> simulates (call_objects step os) (Some t) (map CObj os) x.
  Proof.
    revert x; induction os as [|o r IH]; intros x L.
    - unfold simulates; cbn. rewrite app_nil_r; repeat split; auto. intros _ t0 [= <-]; auto.
    - change (map CObj (o :: r)) with ([CObj o] ++ map CObj r).
      exact (sim_andthen (call step (CObj o)) (call_objects step r) (Some t) (Some t) [CObj o] (map CObj r) x
               (sim_call _ _ _ L) (fun y H => IH y (H t eq_refl))).
  Qed.

  Fixpoint raw (last : otype) (gs : list (otype * list object)) : list callback :=
    match gs with
    | [] => []
    | (t, os) :: r => switch last t ++ map CObj os ++ raw t r
    end.
  Fixpoint last_type (last : otype) (gs : list (otype * list object)) : otype :=
    match gs with [] => last | (t, _) :: r => last_type t r end.

  Lemma sim_groups gs : (forall g, In g gs -> well_typed g) -> forall x t, r_last x = t -> t <> AREA ->
    simulates (read_groups step gs) (Some (last_type t gs)) (raw t gs) x.
  Proof.
    induction gs as [|[t1 os] r IH]; intros W x t L NA; cbn [raw last_type read_groups].
    - unfold simulates; cbn. rewrite app_nil_r; repeat split; auto. intros _ t0 [= <-]; auto.
    - destruct (W _ (or_introl eq_refl)) as [Tt _]; cbn in Tt.
      assert (N1 : t1 <> AREA) by (destruct Tt as [->|[->| ->]]; discriminate).
      apply sim_andthen with (l1 := Some t1).
      + subst t; apply sim_switch; auto.
      + intros y Hy. apply sim_andthen with (l1 := Some t1).
        * apply sim_objects; auto.
        * intros z Hz. apply IH; auto. intros g Hg; apply W; right; auto.
  Qed.
End Feed.

Lemma join_type gs t os r : join ((t, os) :: gs) = r -> exists os' r', r = (t, os ++ os') :: r'.
Proof.
  cbn; intros <-. destruct (join gs) as [|[t' os'] r'].
  - exists [], []; now rewrite app_nil_r.
  - destruct (otype_eqb t t') eqn:E; [eauto|]. exists [], ((t', os') :: r'); now rewrite app_nil_r.
Qed.

Lemma raw_join t gs : (forall g, In g gs -> well_typed g) -> object_type t ->
  forall os, CBefore t :: map CObj os ++ raw t gs ++ close (last_type t gs) = flat_map bracket (join ((t, os) :: gs)).
Proof.
  revert t; induction gs as [|[t1 os1] r IH]; intros t W Tt os.
  - cbn. unfold bracket; cbn. rewrite app_nil_r. destruct Tt as [->|[->| ->]]; reflexivity.
  - destruct (W _ (or_introl eq_refl)) as [Tt1 _]; cbn [fst] in Tt1.
    assert (W' : forall g, In g r -> well_typed g) by (intros g Hg; apply W; right; auto).
    cbn [raw last_type].
    destruct (join_type r t1 os1 _ eq_refl) as (os' & r' & J).
    pose proof (IH t1 W' Tt1 os1) as E. rewrite J in E. cbn [flat_map] in E. unfold bracket in E at 1; cbn [fst snd] in E.
    injection E as E.
    cbn [join] in J. cbn [join]. rewrite J.
    unfold switch. destruct (otype_eqb t1 t) eqn:Ett.
    + apply otype_eqb_spec in Ett; subst t1. rewrite otype_eqb_refl. cbn [flat_map app]. unfold bracket at 1; cbn [fst snd app].
      f_equal. rewrite <- !app_assoc, E. rewrite !map_app, <- !app_assoc. reflexivity.
    + assert (Ett' : otype_eqb t t1 = false) by (clear -Ett; destruct t, t1; cbn in *; congruence).
      rewrite Ett'. cbn [flat_map]. unfold bracket at 1 2; cbn [fst snd]. cbn [app].
      f_equal. rewrite <- !app_assoc. f_equal.
      rewrite map_app, <- !app_assoc in E.
      destruct Tt as [->|[->| ->]]; cbn [app]; f_equal;
        (destruct Tt1 as [->|[->| ->]]; cbn [app]; f_equal; rewrite E; rewrite map_app, <- !app_assoc; reflexivity).
Qed.

Lemma protocol_raw g gs : (forall g', In g' (g :: gs) -> well_typed g') ->
  protocol (g :: gs) = raw UNKNOWN (g :: gs) ++ close (last_type UNKNOWN (g :: gs)) /\
  object_type (last_type UNKNOWN (g :: gs)).
Proof.
  intros W. destruct g as [t os]. destruct (W _ (or_introl eq_refl)) as [Tt _]; cbn [fst] in Tt.
  assert (W' : forall g, In g gs -> well_typed g) by (intros g Hg; apply W; right; auto).
  unfold protocol. rewrite <- raw_join by auto. cbn [raw last_type]. split.
  - unfold switch. destruct Tt as [->|[->| ->]]; cbn [otype_eqb app]; rewrite <- ?app_assoc; reflexivity.
  - clear W os. revert t Tt; induction gs as [|[t1 os1] r IH]; intros t Tt; cbn [last_type]; auto.
    apply IH; [intros g Hg; apply W'; right; auto|]. exact (proj1 (W' _ (or_introl eq_refl))).
Qed.

(** what happens after the body *)
Definition finish {S} (step : callback -> S -> S * option halt) (x : list callback * S * option halt)
  : list callback * S * option halt :=
  let '(m, s, h) := x in
  match h with
  | None | Some (HExn EStopReading) => let (s', r) := step CFinal s in (m ++ [CFinal], s', r)
  | Some h => (m, s, Some h)
  end.

Theorem parse_refines : forall S (step : callback -> S -> S * option halt) gs s,
  gs <> [] -> (forall g, In g gs -> well_typed g) ->
  observe (parse step gs None s) = finish step (feed step (protocol gs) s).
Proof.
  intros S step gs s N W. destruct gs as [|g gs]; [congruence|].
  destruct (protocol_raw g gs W) as [P TL]. rewrite P. unfold parse.
  set (x0 := mkR UNKNOWN s []).
  assert (H : simulates step (fun st => andthen (read_groups step (g :: gs) st) (call_after_and_before step UNKNOWN)) None
                (raw UNKNOWN (g :: gs) ++ close (last_type UNKNOWN (g :: gs))) x0).
  { apply sim_andthen with (l1 := Some (last_type UNKNOWN (g :: gs))).
    - apply sim_groups; auto. discriminate.
    - intros y Hy. specialize (Hy _ eq_refl).
      pose proof (sim_switch step UNKNOWN y ltac:(discriminate)) as H.
      rewrite Hy in H. specialize (H ltac:(intros C; rewrite C in TL; destruct TL as [?|[?|?]]; discriminate)).
      assert (E : switch (last_type UNKNOWN (g :: gs)) UNKNOWN = close (last_type UNKNOWN (g :: gs))).
      { destruct TL as [->|[->| ->]]; reflexivity. }
      rewrite E in H. exact (sim_weaken _ _ _ _ _ H). }
  unfold simulates in H. cbn [r_handler r_trace x0 app] in H.
  destruct (feed step _ s) as [[m s'] h]. destruct H as (A & B & C & D).
  cbn [x0] in *.
  destruct (andthen (read_groups step (g :: gs) x0) (call_after_and_before step UNKNOWN)) as [y r]; cbn [fst snd] in *; subst m s' h.
  unfold finish, observe, call.
  destruct r as [[[]|]|]; cbn; try reflexivity; destruct (step CFinal (r_handler y)) as [s1 r1]; reflexivity.
Qed.

Theorem parse_error_refines : forall S (step : callback -> S -> S * option halt) gs e s,
  gs <> [] -> (forall g, In g gs -> well_typed g) -> e <> EStopReading ->
  observe (parse step gs (Some e) s) =
  match feed step (protocol_open gs) s with
  | (m, s', None) => (m, s', Some (HExn e))
  | x => finish step x
  end.
Proof.
  intros S step gs e s N W Ne. destruct gs as [|g gs]; [congruence|].
  destruct (protocol_raw g gs W) as [P TL]. unfold protocol_open. rewrite P.
  assert (R : removelast (raw UNKNOWN (g :: gs) ++ close (last_type UNKNOWN (g :: gs))) = raw UNKNOWN (g :: gs)).
  { destruct TL as [->|[->| ->]]; cbn [close]; apply removelast_last. }
  rewrite R. unfold parse. set (x0 := mkR UNKNOWN s []).
  pose proof (sim_groups step (g :: gs) W x0 UNKNOWN eq_refl ltac:(discriminate)) as H.
  unfold simulates in H. cbn [r_handler r_trace x0 app] in H.
  destruct (feed step _ s) as [[m s'] h]. destruct H as (A & B & C & D). cbn [x0] in *.
  destruct (read_groups step (g :: gs) x0) as [y r]; cbn [fst snd] in *; subst m s' h. cbn [andthen].
  unfold observe, call, finish.
  destruct r as [[[]|]|]; cbn; try reflexivity; try (destruct (step CFinal (r_handler y)) as [s1 r1]; reflexivity).
  destruct e; cbn; congruence.
Qed.

(* ---- C54 ---- *)
Lemma stop_at : forall S (step : callback -> S -> S * option halt) gs s p c q s1 s2,
  gs <> [] -> (forall g, In g gs -> well_typed g) ->
  protocol gs = p ++ c :: q -> takes step p s s1 -> step c s1 = (s2, Some (HExn EStopReading)) ->
  observe (parse step gs None s) = (p ++ [c; CFinal], fst (step CFinal s2), snd (step CFinal s2)).
Proof.
  intros S step gs s p c q s1 s2 N W E T H. rewrite parse_refines by auto. rewrite E, (feed_at step p c q s s1 T _ _ H).
  cbn. destruct (step CFinal s2); cbn. now rewrite <- app_assoc.
Qed.
Lemma throw_at : forall S (step : callback -> S -> S * option halt) gs s p c q s1 s2 h,
  gs <> [] -> (forall g, In g gs -> well_typed g) ->
  protocol gs = p ++ c :: q -> takes step p s s1 -> step c s1 = (s2, Some h) -> h <> HExn EStopReading ->
  observe (parse step gs None s) = (p ++ [c], s2, Some h).
Proof.
  intros S step gs s p c q s1 s2 h N W E T H Nh. rewrite parse_refines by auto. rewrite E, (feed_at step p c q s s1 T _ _ H).
  cbn. destruct h as [[]|]; try reflexivity; congruence.
Qed.
Lemma no_throw : forall S (step : callback -> S -> S * option halt) gs s s1,
  gs <> [] -> (forall g, In g gs -> well_typed g) -> takes step (protocol gs) s s1 ->
  observe (parse step gs None s) = (protocol gs ++ [CFinal], fst (step CFinal s1), snd (step CFinal s1)).
Proof.
  intros S step gs s s1 N W T. rewrite parse_refines by auto. rewrite T. cbn. now destruct (step CFinal s1).
Qed.

(* ---- C21 ---- *)
Lemma feed_split S (step : callback -> S -> S * option halt) cs s :
  takes step cs s (snd (fst (feed step cs s))) \/
  exists p c q s1 s2 h, cs = p ++ c :: q /\ takes step p s s1 /\ step c s1 = (s2, Some h).
Proof.
  revert s; induction cs as [|c r IH]; intros s; unfold takes; cbn.
  - left; reflexivity.
  - destruct (step c s) as [s' [h|]] eqn:E.
    + right. exists [], c, r, s, s', h. repeat split; auto.
    + destruct (IH s') as [T|(p & c1 & q & s1 & s2 & h & -> & T & H)].
      * left. unfold takes in T. destruct (feed step r s') as [[m s2] h]; cbn in *. now injection T as -> ->.
      * right. exists (c :: p), c1, q, s1, s2, h. repeat split; auto. unfold takes; cbn. rewrite E, T. reflexivity.
Qed.

Lemma finish_shape S (step : callback -> S -> S * option halt) m s' h tr s0 r :
  finish step (m, s', h) = (tr, s0, r) -> tr = m ++ [CFinal] \/ (tr = m /\ exists h, r = Some h).
Proof.
  unfold finish. destruct h as [[[]|]|]; try destruct (step CFinal s') as [s1 r1];
    intros E; injection E as E1 E2 E3; subst; eauto.
Qed.

Lemma parse_any : forall S (step : callback -> S -> S * option halt) gs tail s,
  (forall g, In g gs -> well_typed g) -> gs <> [] ->
  exists p q h, protocol gs = p ++ q /\ observe (parse step gs tail s) =
    match feed step p s with
    | (m, s', None) => finish step (m, s', h)
    | x => finish step x
    end.
Proof.
  intros S step gs tail s W N. destruct tail as [e|].
  - destruct gs as [|g gs]; [congruence|]. set (G := g :: gs) in *.
    destruct (protocol_raw g gs W) as [P TL]. exists (raw UNKNOWN G), (close (last_type UNKNOWN G)), (Some (HExn e)).
    split; [exact P|]. unfold parse. set (x0 := mkR UNKNOWN s []).
    pose proof (sim_groups step G W x0 UNKNOWN eq_refl ltac:(discriminate)) as H.
    unfold simulates in H. cbn [r_handler r_trace x0 app] in H.
    destruct (feed step _ s) as [[m s'] h]. destruct H as (A & B & C & Dd). cbn [x0] in *.
    destruct (read_groups step G x0) as [y r]; cbn [fst snd] in *; subst m s' h. cbn [andthen].
    unfold observe, call, finish.
    destruct r as [[[]|]|]; cbn; try reflexivity; try (destruct (step CFinal (r_handler y)) as [s1 r1]; reflexivity).
    destruct e; cbn; try reflexivity. destruct (step CFinal (r_handler y)) as [s1 r1]; reflexivity.
  - exists (protocol gs), [], None. rewrite app_nil_r; split; auto. rewrite parse_refines by auto.
    destruct (feed step (protocol gs) s) as [[m s'] [h|]]; reflexivity.
Qed.

Lemma trace_shape : forall S (step : callback -> S -> S * option halt) gs tail s tr s0 r,
  (forall g, In g gs -> well_typed g) -> observe (parse step gs tail s) = (tr, s0, r) ->
  exists p q, (gs <> [] -> protocol gs = p ++ q) /\ (gs = [] -> p = []) /\
    (tr = p ++ [CFinal] \/ (tr = p /\ exists h, r = Some h)).
Proof.
  intros S step gs tail s tr s0 r W E. destruct gs as [|g gs].
  - exists [], []. repeat split; auto; [congruence|].
    unfold parse, observe, call in E. destruct tail as [e|].
    + destruct e; cbn in E; try destruct (step CFinal s) as [s1 r1]; injection E as E1 E2 E3; subst; cbn; eauto.
    + cbn in E. destruct (step CFinal s) as [s1 r1]; injection E as E1 E2 E3; subst; cbn; eauto.
  - destruct (parse_any S step (g :: gs) tail s W ltac:(discriminate)) as (p & q & h & P & E1).
    rewrite E1 in E. destruct (feed step p s) as [[m s'] hh] eqn:F.
    destruct (feed_prefix step p s m s' hh F) as [q' ->].
    exists m, (q' ++ q). rewrite app_assoc. repeat split; auto; [discriminate|].
    destruct hh as [hh|]; eapply finish_shape; eauto.
Qed.

Lemma open_app p q : open_type (p ++ q) = fold_left open_step q (open_type p).
Proof. unfold open_type; apply fold_left_app. Qed.

Lemma open_objs os c : fold_left open_step (map CObj os) c = c.
Proof. induction os; cbn; auto. Qed.

(** invariant of a bracketed list of callbacks: it starts closed, ends closed, and every object
    and bracket is where it should be *)
Lemma bracket_objects runs : (forall g, In g runs -> well_typed g) ->
  forall p0 p o q, open_type p0 = None -> flat_map bracket runs = p ++ CObj o :: q ->
  open_type (p0 ++ p) = Some (obj_type o).
Proof.
  induction runs as [|[t os] r IH]; intros W p0 p o q H0 E; cbn in E.
  - destruct p; discriminate.
  - unfold bracket in E at 1; cbn in E.
    destruct p as [|c p]; [discriminate|]. injection E as <- E. rewrite <- app_assoc in E.
    assert (Tt : forall o, In o os -> obj_type o = t) by exact (proj2 (W _ (or_introl eq_refl))).
    assert (X : (exists p', p = map CObj os ++ CAfter t :: p' /\ flat_map bracket r = p' ++ CObj o :: q) \/
                (exists os1 os2, os = os1 ++ o :: os2 /\ p = map CObj os1)).
    { clear -E. revert p E; induction os as [|x os IH]; intros p E; cbn in E.
      - destruct p as [|c p]; [discriminate|]. injection E as <- E. left. exists p; auto.
      - destruct p as [|c p].
        + injection E as <- E. right. exists [], os; auto.
        + injection E as <- E. destruct (IH p E) as [(p' & -> & E')|(os1 & os2 & -> & ->)].
          * left; exists p'; auto.
          * right; exists (x :: os1), os2; auto. }
    destruct X as [(p' & -> & E')|(os1 & os2 & -> & ->)].
    + replace (p0 ++ CBefore t :: map CObj os ++ CAfter t :: p') with ((p0 ++ CBefore t :: map CObj os ++ [CAfter t]) ++ p').
      2:{ rewrite <- app_assoc. cbn. now rewrite <- app_assoc. }
      apply IH with (q := q); auto.
      * intros g Hg; apply W; right; auto.
      * rewrite open_app; cbn. rewrite fold_left_app, open_objs. reflexivity.
    + rewrite open_app; cbn. rewrite open_objs. f_equal. symmetry; apply Tt. apply in_or_app; right; left; auto.
Qed.

Lemma join_well_typed gs : (forall g, In g gs -> well_typed g) -> forall g, In g (join gs) -> well_typed g.
Proof.
  induction gs as [|[t os] r IH]; intros W g Hg; [destruct Hg|].
  assert (W' : forall g, In g r -> well_typed g) by (intros; apply W; right; auto).
  specialize (IH W'). pose proof (W _ (or_introl eq_refl)) as [A B]; cbn in A, B.
  cbn in Hg. destruct (join r) as [|[t' os'] r'].
  - destruct Hg as [<-|[]]. split; auto.
  - destruct (otype_eqb t t') eqn:E.
    + apply otype_eqb_spec in E; subst t'. destruct Hg as [<-|Hg].
      * split; auto. cbn. intros o Ho; apply in_app_or in Ho as [Ho|Ho]; auto.
        apply (proj2 (IH _ (or_introl eq_refl))); auto.
      * apply IH; right; auto.
    + destruct Hg as [<-|Hg]; [split; auto|]. apply IH; auto.
Qed.

Lemma join_differ gs : neighbours_differ (map fst (join gs)).
Proof.
  induction gs as [|[t os] r IH]; cbn; auto.
  destruct (join r) as [|[t' os'] r'] eqn:J; cbn; auto.
  destruct (otype_eqb t t') eqn:E.
  - apply otype_eqb_spec in E; subst t'. exact IH.
  - split; [|exact IH]. cbn. intros C. rewrite C, otype_eqb_refl in E; discriminate.
Qed.
Lemma join_objects gs : flat_map snd (join gs) = flat_map snd gs.
Proof.
  induction gs as [|[t os] r IH]; cbn; auto. rewrite <- IH.
  destruct (join r) as [|[t' os'] r']; cbn; auto.
  destruct (otype_eqb t t'); cbn; auto. now rewrite app_assoc.
Qed.

Lemma objects_bracketed : forall S (step : callback -> S -> S * option halt) gs tail s p o q,
  (forall g, In g gs -> well_typed g) ->
  r_trace (fst (parse step gs tail s)) = p ++ CObj o :: q -> open_type p = Some (obj_type o).
Proof.
  intros S step gs tail s p o q W E. pose proof (trace_shape S step gs tail s _ _ _ W eq_refl) as T.
  rewrite E in T. destruct T as (p1 & q1 & P & P0 & T).
  assert (X : exists q2, p1 = p ++ CObj o :: q2).
  { destruct T as [T|[T _]]; [|eauto].
    destruct (exists_last (l := CObj o :: q) ltac:(discriminate)) as [l' [z Ez]].
    rewrite Ez, app_assoc in T. apply app_inj_tail in T as [T ->].
    destruct l' as [|c l']; cbn in Ez; [injection Ez; congruence|]. injection Ez as <- _. eauto. }
  destruct X as [q2 ->]. destruct gs as [|g gs]; [specialize (P0 eq_refl); destruct p; discriminate|].
  specialize (P ltac:(discriminate)). unfold protocol in P. rewrite <- app_assoc in P.
  destruct p as [|c p]; [discriminate|]. injection P as <- P.
  exact (bracket_objects _ (join_well_typed _ W) [CInit] p o (q2 ++ q1) eq_refl P).
Qed.

Lemma bracket_no_init runs : ~ In CInit (flat_map bracket runs) /\ ~ In CFinal (flat_map bracket runs).
Proof.
  induction runs as [|[t os] r [A B]]; cbn; [tauto|].
  split; intros H; destruct H as [H|H]; try discriminate;
    apply in_app_or in H as [H|H]; auto; apply in_app_or in H as [H|[H|[]]]; try discriminate;
    apply in_map_iff in H as (? & ? & _); discriminate.
Qed.

Lemma init_final_places : forall S (step : callback -> S -> S * option halt) gs tail s,
  (forall g, In g gs -> well_typed g) -> gs <> [] ->
  let tr := r_trace (fst (parse step gs tail s)) in
  (forall p q, tr = p ++ CInit :: q -> p = []) /\
  (forall p q, tr = p ++ CFinal :: q -> q = []) /\
  (tr = [] \/ tr = [CFinal] \/ exists q, tr = CInit :: q) /\
  (snd (parse step gs tail s) = None -> exists p, tr = p ++ [CFinal]).
Proof.
  intros S step gs tail s W N. pose proof (trace_shape S step gs tail s _ _ _ W eq_refl) as T.
  cbv zeta. set (tr := r_trace (fst (parse step gs tail s))) in *. set (res := snd (parse step gs tail s)) in *.
  destruct T as (p1 & q1 & P & _ & T). specialize (P N). unfold protocol in P.
  destruct (bracket_no_init (join gs)) as [NI NF].
  assert (A : forall p q, p1 = p ++ CInit :: q -> p = []).
  { intros p q ->. rewrite <- app_assoc in P. destruct p as [|c p]; auto. injection P as _ P.
    exfalso; apply NI. rewrite P. apply in_or_app; right; left; auto. }
  assert (B : ~ In CFinal p1).
  { intros H. destruct p1 as [|c p1]; [destruct H|]. injection P as <- P. destruct H as [H|H]; [discriminate|].
    apply NF. rewrite P. apply in_or_app; auto. }
  destruct T as [T|[T [h Hh]]]; rewrite T.
  - repeat split.
    + intros p q E. destruct (exists_last (l := CInit :: q) ltac:(discriminate)) as [l' [z Ez]].
      rewrite Ez, app_assoc in E. apply app_inj_tail in E as [E <-].
      destruct l' as [|c l']; cbn in Ez; [injection Ez; congruence|]. injection Ez as <- _. eapply A; eauto.
    + intros p q E. destruct q as [|c q]; auto. exfalso.
      destruct (exists_last (l := c :: q) ltac:(discriminate)) as [l' [z Ez]].
      rewrite Ez in E. replace (p ++ CFinal :: l' ++ [z]) with ((p ++ CFinal :: l') ++ [z]) in E by (now rewrite <- app_assoc).
      apply app_inj_tail in E as [E _]. apply B. rewrite E. apply in_or_app; right; left; auto.
    + destruct p1 as [|c p1]; cbn; auto. injection P as <- P. eauto.
    + intros _. eauto.
  - repeat split; auto.
    + intros p q ->. exfalso; apply B, in_or_app; right; left; auto.
    + destruct p1 as [|c p1]; cbn; auto. injection P as <- P. eauto.
    + unfold res in *; congruence.
Qed.
