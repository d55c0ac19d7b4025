(** Handlers that act on objects only, read by Input::read: the objects are handled one after the other. *)
From Verif Require Import Base.Prelude Model.Osm Model.Handler Model.Convert.

Section Objects.
  Context {S : Type}.
  Variable h : callback -> S -> S * option halt.
  Fixpoint run_objects (os : list object) (s : S) : S * option halt :=
    match os with
    | [] => (s, None)
    | o :: r => match h (CObj o) s with (s', None) => run_objects r s' | (s', Some x) => (s', Some x) end
    end.
  Lemma run_objects_app a b s : run_objects (a ++ b) s =
    match run_objects a s with (s', None) => run_objects b s' | (s', Some x) => (s', Some x) end.
  Proof.
    revert s. induction a as [|o a IH]; intros s; [reflexivity|]. cbn [app run_objects].
    destruct (h (CObj o) s) as [s' [x|]]; [reflexivity|]. apply IH.
  Qed.
  Definition ended (e : outcome unit) (x : S * option halt) : S * option halt * bool :=
    match x with
    | (s, Some (HExn EStopReading)) => (s, None, true)
    | (s, Some r) => (s, Some r, false)
    | (s, None) => match e with
                   | Ok _ | Throw EStopReading => (s, None, true)
                   | Throw e => (s, Some (HExn e), false)
                   | UB | AssertFail => (s, Some HUB, false)
                   end
    end.

  Hypothesis H : forall c s, (forall o, c <> CObj o) -> h c s = (s, None).
  Definition like (x : rstate S * option halt) (y : S * option halt) : Prop := r_handler (fst x) = fst y /\ snd x = snd y.
  Lemma quiet_call c st : (forall o, c <> CObj o) -> like (call h c st) (r_handler st, None).
  Proof. intros N. unfold like, call. rewrite (H c _ N). split; reflexivity. Qed.
  Lemma quiet_then x y f : like x y -> (forall st, r_handler st = fst y -> like (f st) (fst y, None)) ->
    like (andthen x f) y.
  Proof.
    destruct x as [st r], y as [s q]. intros [A B] F. cbn [fst snd] in *. subst q. destruct r as [r|]; [split; [exact A|reflexivity]|]. cbn [andthen]. apply F. exact A.
  Qed.
  Lemma quiet_switch t st : like (call_after_and_before h t st) (r_handler st, None).
  Proof.
    unfold call_after_and_before. destruct (negb _); [|split; reflexivity].
    apply quiet_then; [unfold call_after; destruct (r_last st); first [apply quiet_call; discriminate|split; reflexivity]|].
    cbn [fst]. intros st1 E1. rewrite <- E1. apply quiet_then; [unfold call_before; destruct t; first [apply quiet_call; discriminate|split; reflexivity]|].
    cbn [fst]. intros st2 E2. split; [exact E2|reflexivity].
  Qed.
  Lemma like_then x y f g : like x y -> (forall st, like (f st) (g (r_handler st))) ->
    like (andthen x f) (match y with (s, None) => g s | (s, Some r) => (s, Some r) end).
  Proof.
    destruct x as [st r], y as [s q]. intros [A B] F. cbn [fst snd] in *. subst s q. destruct r as [r|]; [split; reflexivity|]. cbn [andthen]. apply F.
  Qed.
  Lemma like_objects os : forall st, like (call_objects h os st) (run_objects os (r_handler st)).
  Proof.
    induction os as [|o os IH]; intros st; [split; reflexivity|]. cbn [call_objects run_objects].
    assert (A : like (call h (CObj o) st) (h (CObj o) (r_handler st))) by (unfold like, call; destruct (h (CObj o) (r_handler st)); split; reflexivity).
    exact (like_then _ _ _ _ A IH).
  Qed.
  Lemma like_groups gs : forall st, like (read_groups h gs st) (run_objects (flat_map snd gs) (r_handler st)).
  Proof.
    induction gs as [|[t os] gs IH]; intros st; [split; reflexivity|]. cbn [read_groups flat_map snd]. rewrite run_objects_app.
    pose proof (like_then _ _ (fun st1 => andthen (call_objects h os st1) (read_groups h gs))
      (fun s => match run_objects os s with (s', None) => run_objects (flat_map snd gs) s' | (s', Some x) => (s', Some x) end) (quiet_switch t st)) as A.
    apply A. intros st1. exact (like_then _ _ _ _ (like_objects os st1) IH).
  Qed.
  Lemma objects_read gs e s : input_read h (gs, e) s = ended e (run_objects (flat_map snd gs) s).
  Proof.
    unfold input_read, parse. cbn [fst snd]. pose proof (like_groups gs (mkR UNKNOWN s [])) as G. cbn [r_handler] in G.
    destruct (run_objects (flat_map snd gs) s) as [s' x]. destruct (read_groups h gs (mkR UNKNOWN s [])) as [st y] eqn:E. destruct G as [A B]. cbn [fst snd] in A, B. subst y.
    assert (Fin : forall st', r_handler st' = s' -> exists st'', call h CFinal st' = (st'', None) /\ r_handler st'' = s').
    { intros st' E'. destruct (quiet_call CFinal st' ltac:(discriminate)) as [C D]. destruct (call h CFinal st') as [st'' r]. cbn [fst snd] in C, D. subst r.
      exists st''. split; [reflexivity|]. congruence. }
    assert (Lift : forall st' z, r_handler st' = s' ->
      (let (st0, h0) := match (st', Some z) with (q, Some (HExn EStopReading)) => call h CFinal q | y => y end in
       (r_handler st0, h0, match h0 with None => true | Some _ => false end)) = ended e (s', Some z)).
    { intros st' z E'. destruct z as [[] |]; cbn [ended]; try (rewrite E'; reflexivity). destruct (Fin st' E') as (st'' & -> & ->). reflexivity. }
    destruct x as [x|].
    - destruct e as [u|e| |]; cbn [andthen]; rewrite <- (Lift st x A); destruct x as [[] |]; reflexivity.
    - destruct e as [u|e| |]; cbn [andthen].
      + destruct (quiet_switch UNKNOWN st) as [C D]. destruct (call_after_and_before h UNKNOWN st) as [st2 r]. cbn [fst snd] in C, D. subst r.
        destruct (Fin st2 ltac:(congruence)) as (st'' & -> & ->). reflexivity.
      + destruct e; cbn [ended]; try (rewrite A; reflexivity). destruct (Fin st A) as (st'' & -> & ->). reflexivity.
      + cbn [ended]. rewrite A. reflexivity.
      + cbn [ended]. rewrite A. reflexivity.
  Qed.
End Objects.
