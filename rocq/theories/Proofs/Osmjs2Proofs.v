(** Proofs about osmjs: whole runs. *)
From Verif Require Import Base.Prelude Model.Osm Model.Store Model.Handler Model.Assembler Model.OsmFile Model.Osmjs
  Spec.OsmSpec Spec.HandlerSpec Spec.AssemblerSpec Spec.OsmjsSpec Proofs.HandlerProofs Proofs.Handler2Proofs Proofs.AssemblerProofs Proofs.Assembler2Proofs Proofs.Assembler3Proofs Proofs.Assembler4Proofs Proofs.OsmjsProofs.

(** a handler that at most stops reading *)
Lemma stop_only : forall S (step : callback -> S -> S * option halt),
  (forall c s, snd (step c s) = None \/ snd (step c s) = Some (HExn EStopReading)) -> (forall s, snd (step CFinal s) = None) ->
  forall gs s, snd (parse step gs None s) = None.
Proof.
  intros S step H F gs s.
  assert (C : forall c st, snd (call step c st) = None \/ snd (call step c st) = Some (HExn EStopReading)).
  { intros c st. unfold call. pose proof (H c (r_handler st)) as Hc. destruct (step c (r_handler st)). exact Hc. }
  assert (A : forall (x : rstate S * option halt) f, (snd x = None \/ snd x = Some (HExn EStopReading)) ->
    (forall st, snd (f st) = None \/ snd (f st) = Some (HExn EStopReading)) ->
    snd (andthen x f) = None \/ snd (andthen x f) = Some (HExn EStopReading)).
  { intros [st [h|]] f Hx Hf; cbn [andthen snd] in *; auto. }
  assert (AB : forall t st, snd (call_after_and_before step t st) = None \/ snd (call_after_and_before step t st) = Some (HExn EStopReading)).
  { intros t st. unfold call_after_and_before. destruct (negb _); [|now left]. apply A.
    - unfold call_after. destruct (r_last st); auto.
    - intros st1. apply A; [unfold call_before; destruct t; auto|]. intros st2. now left. }
  assert (O : forall os st, snd (call_objects step os st) = None \/ snd (call_objects step os st) = Some (HExn EStopReading)).
  { induction os as [|o r IH]; intros st; [now left|]. cbn [call_objects]. apply A; auto. }
  assert (G : forall l st, snd (read_groups step l st) = None \/ snd (read_groups step l st) = Some (HExn EStopReading)).
  { induction l as [|[t os] r IH]; intros st; [now left|]. cbn [read_groups]. apply A; auto. }
  unfold parse. cbv zeta.
  assert (B : snd (andthen (read_groups step gs (mkR UNKNOWN s [])) (fun st => call_after_and_before step UNKNOWN st)) = None \/
    snd (andthen (read_groups step gs (mkR UNKNOWN s [])) (fun st => call_after_and_before step UNKNOWN st)) = Some (HExn EStopReading)) by (apply A; auto).
  destruct (andthen _ _) as [st h]. cbn [snd] in B.
  assert (K : snd (call step CFinal st) = None).
  { unfold call. pose proof (F (r_handler st)) as Hf. destruct (step CFinal (r_handler st)). exact Hf. }
  destruct B as [-> | ->]; exact K.
Qed.
Lemma pass1_ends : forall select keep srt gs a, snd (parse (pass1 select keep srt) gs None a) = None.
Proof.
  intros. apply stop_only; [|reflexivity]. intros c s. destruct c as [|t|[n|w|r]|t|x|]; cbn; auto. destruct t; cbn; auto.
Qed.

Lemma objects_protocol : forall gs, objects_of (protocol gs ++ [CFinal]) = flat_map snd gs.
Proof.
  intros gs. unfold objects_of. rewrite flat_map_app. cbn [flat_map app]. rewrite app_nil_r. unfold protocol. cbn [flat_map app].
  rewrite <- (join_objects gs). induction (join gs) as [|[t os] r IH]; [reflexivity|].
  cbn [flat_map]. rewrite flat_map_app, IH. f_equal. unfold bracket. cbn [fst snd flat_map app]. rewrite flat_map_app. cbn [flat_map app].
  rewrite app_nil_r. clear. induction os as [|o os IH]; [reflexivity|]. cbn [map flat_map app]. now rewrite IH.
Qed.

(* ---- located runs ---- *)
Fixpoint located_runs (dflt : position) (seen : list object) (rs : list (otype * list object)) : list (otype * list object) :=
  match rs with
  | [] => []
  | (t, os) :: r => (t, located_stream seen os dflt) :: located_runs dflt (seen ++ os) r
  end.
Lemma located_calls_app : forall d a b seen, located_calls d seen (a ++ b) = located_calls d seen a ++ located_calls d (seen ++ objects_of a) b.
Proof.
  intros d. induction a as [|c r IH]; intros b seen; cbn [app objects_of flat_map].
  - cbn. now rewrite app_nil_r.
  - destruct c; cbn [located_calls app]; fold (objects_of r); rewrite IH; try reflexivity. rewrite <- app_assoc. reflexivity.
Qed.
Lemma located_map : forall d os seen, located_calls d seen (map CObj os) = map CObj (located_stream seen os d).
Proof. intros d. induction os as [|o r IH]; intros seen; [reflexivity|]. cbn [map located_calls located_stream]. now rewrite IH. Qed.
Lemma objects_map : forall os, objects_of (map CObj os) = os.
Proof. induction os as [|o r IH]; [reflexivity|]. cbn. unfold objects_of in IH. now rewrite IH. Qed.
Lemma located_brackets : forall d rs seen tl, located_calls d seen (flat_map bracket rs ++ tl) =
  flat_map bracket (located_runs d seen rs) ++ located_calls d (seen ++ flat_map snd rs) tl.
Proof.
  intros d. induction rs as [|[t os] r IH]; intros seen tl; cbn [flat_map located_runs].
  - cbn. now rewrite app_nil_r.
  - rewrite <- !app_assoc. unfold bracket at 1 3. cbn [fst snd app located_calls]. f_equal.
    rewrite <- !app_assoc. rewrite located_calls_app, located_map, objects_map. f_equal. cbn [app located_calls]. f_equal.
    rewrite IH. now rewrite <- app_assoc.
Qed.
Lemma locate_key : forall seen d o, obj_type (locate seen d o) = obj_type o /\ obj_id (locate seen d o) = obj_id o.
Proof. intros seen d [n|w|r]; now split. Qed.
Lemma located_stream_in : forall d os seen o', In o' (located_stream seen os d) -> exists seen' o, In o os /\ o' = locate seen' d o.
Proof.
  intros d. induction os as [|o r IH]; intros seen o' H; [destruct H|]. cbn [located_stream] in H. destruct H as [<-|H].
  - exists seen, o. split; [now left|reflexivity].
  - destruct (IH _ _ H) as (se & x & Hx & E). exists se, x. split; [now right|exact E].
Qed.
Lemma located_stream_app : forall d a b seen, located_stream seen (a ++ b) d = located_stream seen a d ++ located_stream (seen ++ a) b d.
Proof.
  intros d. induction a as [|o r IH]; intros b seen; cbn [app located_stream]; [now rewrite app_nil_r|]. rewrite IH, <- app_assoc. reflexivity.
Qed.
Lemma located_runs_objects : forall d rs seen, flat_map snd (located_runs d seen rs) = located_stream seen (flat_map snd rs) d.
Proof.
  intros d. induction rs as [|[t os] r IH]; intros seen; [reflexivity|]. cbn [located_runs flat_map snd]. now rewrite IH, located_stream_app.
Qed.
Lemma located_runs_sorted : forall d rs, sorted_file rs -> sorted_file (located_runs d [] rs).
Proof.
  intros d rs (A & B & C). split; [|split].
  - assert (E : forall l seen, map fst (located_runs d seen l) = map fst l).
    { induction l as [|[t os] r IH]; intros seen; [reflexivity|]. cbn [located_runs map fst]. now rewrite IH. }
    now rewrite E.
  - assert (G : forall l seen, (forall r, In r l -> well_typed r) -> forall r, In r (located_runs d seen l) -> well_typed r).
    { induction l as [|[t os] l IH]; intros seen Hl r H; [destruct H|]. cbn [located_runs] in H. destruct H as [<-|H].
      - destruct (Hl (t, os)) as [T1 T2]; [now left|]. split; [exact T1|]. cbn [fst snd] in *. intros o' Ho.
        destruct (located_stream_in _ _ _ _ Ho) as (se & o & Hin & ->). rewrite (proj1 (locate_key _ _ _)). now apply T2.
      - eapply IH; eauto. intros x Hx. apply Hl. now right. }
    apply (G rs [] B).
  - unfold no_repeats in *. rewrite located_runs_objects.
    assert (E : forall os seen, map (fun o => (obj_type o, obj_id o)) (located_stream seen os d) = map (fun o => (obj_type o, obj_id o)) os).
    { induction os as [|o r IH]; intros seen; [reflexivity|]. cbn [located_stream map]. rewrite IH.
      destruct (locate_key seen d o) as [-> ->]. reflexivity. }
    now rewrite E.
Qed.
Lemma located_ways_ok : forall d os, (forall w, In (OWay w) os -> way_ok w) -> forall w, In (OWay w) (located_stream [] os d) -> way_ok w.
Proof.
  intros d os H w Hin. destruct (located_stream_in _ _ _ _ Hin) as (se & o & Ho & E). destruct o as [n|w0|r]; cbn [locate] in E; try discriminate.
  injection E as ->. destruct (H _ Ho) as [A B]. split; cbn [w_nodes w_attrs]; [|exact B]. destruct (w_nodes w0); [congruence|discriminate].
Qed.

Section Run.
  Context {S F P N : Type}.
  Variable load : string -> option string.
  Variable boot : bool -> list string -> S.
  Variable eval : string -> S -> option S.
  Variable func : string -> S -> option F.
  Variable invoke : F -> this -> S -> S * bool.
  Variable pset : Z -> position -> P -> outcome P.
  Variable pget : Z -> P -> outcome position.
  Variable nset : Z -> position -> N -> outcome N.
  Variable nget : Z -> N -> outcome position.
  Variable store : location -> P.
  Variable store_neg : N.
  Variable build : bool -> relation -> list (option object) -> outcome (list attrs).
  Variable srt : list minfo -> list minfo.
  Variable contents : nat -> string -> list group * option exn.
  Notation passes' := (passes load boot eval func invoke pset pget nset nget store store_neg build srt contents).
  Notation js_new' := (js_new load boot eval func).
  Notation final_state := (final_state func invoke).

  Lemma observe_inj : forall A (x : rstate A * option halt) t s h, observe x = (t, s, h) -> r_handler (fst x) = s /\ snd x = h.
  Proof. intros A [[l s0 t0] h0] t s h H. unfold observe in H. cbn in H. injection H as -> -> ->. now split. Qed.

  Theorem plain_thm : forall cfg file args cb s gs,
    js_new' args (c_includes cfg) (c_js cfg) = Go (cb, s) -> c_two cfg = false -> c_store cfg = LNone ->
    contents 0 file = (gs, None) -> gs <> [] -> (forall g, In g gs -> well_typed g) ->
    passes' cfg file args = Go (mkEnd [file] (final_state s (protocol gs ++ [CFinal])) None).
  Proof.
    intros cfg file args cb s gs J T L C Ne W. unfold passes. rewrite J. cbn [gbind]. rewrite T, C, L. cbv zeta.
    assert (E : cb = callbacks func s) by (apply (load_thm load boot eval func) in J; tauto). subst cb.
    pose proof (no_throw _ (js_step invoke (callbacks func s)) gs s _ Ne W (js_takes invoke _ _ _)) as O.
    apply observe_inj in O as [O1 O2]. rewrite O1, O2. unfold OsmjsSpec.final_state.
    rewrite <- (js_all_spec func invoke), js_all_app. reflexivity.
  Qed.

  Section Stores.
    Variable dflt : position.
    Variable domp domn : Z -> Prop.
    Hypothesis WN : store_works nset nget store_neg dflt domn.

    Theorem located_thm : forall cfg file args cb s gs,
      js_new' args (c_includes cfg) (c_js cfg) = Go (cb, s) -> c_two cfg = false -> c_store cfg <> LNone ->
      store_works pset pget (store (c_store cfg)) dflt domp ->
      contents 0 file = (gs, None) -> gs <> [] -> (forall g, In g gs -> well_typed g) ->
      (forall o id, In o (flat_map snd gs) -> In id (used_ids o) -> id_ok domp domn id) ->
      passes' cfg file args = Go (mkEnd [file] (final_state s (located_calls dflt [] (protocol gs ++ [CFinal]))) None).
    Proof.
      intros cfg file args cb s gs J T L WP C Ne W D. unfold passes. rewrite J. cbn [gbind]. rewrite T, C. cbv zeta.
      assert (E : cb = callbacks func s) by (apply (load_thm load boot eval func) in J; tauto). subst cb.
      destruct (cfw_correct pset pget nset nget _ _ dflt domp domn WP WN (flat_map snd gs) D) as (pn & R).
      rewrite <- objects_protocol in R.
      pose proof (located_takes invoke pset pget nset nget (callbacks func s) (protocol gs ++ [CFinal]) _ _ _ s R) as TK.
      rewrite refill_located in TK. apply takes_app in TK as (st1 & T1 & T2). apply takes_one in T2.
      pose proof (no_throw _ _ gs _ _ Ne W T1) as O. rewrite T2 in O. cbn [fst snd] in O. apply observe_inj in O as [O1 O2].
      unfold OsmjsSpec.final_state. rewrite <- (js_all_spec func invoke).
      destruct (c_store cfg); [congruence| | | |]; rewrite O1, O2; reflexivity.
    Qed.

    Theorem areas_thm : forall cfg file args cb s gs,
      js_new' args (c_includes cfg) (c_js cfg) = Go (cb, s) -> c_two cfg = true -> c_store cfg <> LNone ->
      store_works pset pget (store (c_store cfg)) dflt domp -> sorts srt -> (forall r ms, exists l, build (c_repair cfg) r ms = Ok l) ->
      contents 0 file = (gs, None) -> contents 1 file = (gs, None) -> gs <> [] -> (forall g, In g gs -> well_typed g) ->
      sorted_file (join gs) -> (forall w, In (OWay w) (flat_map snd gs) -> way_ok w) ->
      (forall o id, In o (flat_map snd gs) -> In id (used_ids o) -> id_ok domp domn id) ->
      let calls := located_calls dflt [] (protocol gs ++ [CFinal]) in
      exists outs, passes' cfg file args = Go (mkEnd [file; file] (final_state s (List.concat outs)) None) /\
        List.length outs = List.length calls /\
        forall p c q, calls = p ++ c :: q -> mp_output (build (c_repair cfg)) (first_relations gs) p c (nth (List.length p) outs []).
    Proof.
      intros cfg file args cb s gs J T L WP SR BT C0 C1 Ne W SF WO D calls. unfold passes. rewrite J. cbn [gbind]. rewrite T, C0. cbv zeta.
      assert (E : cb = callbacks func s) by (apply (load_thm load boot eval func) in J; tauto). subst cb.
      rewrite pass1_ends, C1.
      destruct (cfw_correct pset pget nset nget _ _ dflt domp domn WP WN (flat_map snd gs) D) as (pn & R).
      rewrite <- objects_protocol in R.
      assert (FC : calls = file_calls (located_runs dflt [] (join gs))).
      { unfold calls, file_calls, protocol. cbn [app located_calls]. f_equal. rewrite located_brackets. reflexivity. }
      destruct (multipolygon_decisions (build (c_repair cfg)) BT srt gs (located_runs dflt [] (join gs)) SR W (located_runs_sorted _ _ SF)) as (a' & outs & M & Len & Dec).
      { rewrite located_runs_objects, join_objects. now apply located_ways_ok. }
      rewrite <- FC in M, Len, Dec. exists outs. split; [|now split].
      unfold calls in M. rewrite <- refill_located in M. fold calls in M.
      pose proof (mp_takes invoke pset pget nset nget build (callbacks func s) (c_repair cfg) (protocol gs ++ [CFinal]) _ _ _ _ _ _ s R M) as TK.
      apply takes_app in TK as (st1 & T1 & T2). apply takes_one in T2.
      pose proof (no_throw _ _ gs _ _ Ne W T1) as O. rewrite T2 in O. cbn [fst snd] in O. apply observe_inj in O as [O1 O2].
      unfold OsmjsSpec.final_state. rewrite <- (js_all_spec func invoke).
      destruct (c_store cfg); [congruence| | | |]; rewrite O1, O2; reflexivity.
    Qed.
  End Stores.

  (** reading the standard input at most once; undefined behaviour *)
  Theorem reads_thm : forall readable home os rest e,
    osmjs load boot eval func invoke pset pget nset nget store store_neg build srt contents readable home os rest = Go e ->
    exists file args, rest = file :: args /\ (e_reads e = [file] \/ (e_reads e = [file; file] /\ file <> "-"%string)).
  Proof.
    intros readable home os rest e H. unfold osmjs in H. rewrite options_thm in H. unfold options_spec in H.
    destruct (first_some _ os) as [[k|]|]; try discriminate. destruct rest as [|file args]; [discriminate|].
    destruct (String.eqb _ ""); [discriminate|]. destruct ((has_opt OTwo os || has_opt OMulti os) && String.eqb file "-")%bool eqn:B; [discriminate|].
    assert (G : passes' (meaning readable home os) file args = Go e).
    { destruct (has_opt OMulti os); [destruct (c_store (meaning readable home os)); [discriminate| | | |]; exact H|exact H]. }
    exists file, args. split; [reflexivity|]. unfold passes in G. destruct (js_new' _ _ _) as [k| |[cb s]]; try discriminate. cbn [gbind] in G.
    destruct (c_two (meaning readable home os)) eqn:T.
    - cbn [meaning c_two] in T. rewrite T in B. cbn [andb] in B. apply String.eqb_neq in B.
      destruct (c_store _); [discriminate| | | |]; (destruct (contents 0 file) as [g1 t1]; destruct (snd (parse _ g1 t1 _)); [injection G as <-; now left|];
        destruct (contents 1 file) as [g2 t2]; injection G as <-; right; now split).
    - destruct (contents 0 file) as [g1 t1]. destruct (c_store _); injection G as <-; now left.
  Qed.
  Theorem undefined_thm : forall readable home os rest,
    osmjs load boot eval func invoke pset pget nset nget store store_neg build srt contents readable home os rest = Undef ->
    (home = None /\ exists f, In (OInclude f) os) \/ (In OTwo os /\ ~ In OMulti os /\ last (choose store_of os) LNone = LNone).
  Proof.
    intros readable home os rest H. unfold osmjs in H. rewrite options_thm in H. unfold options_spec in H.
    destruct (first_some _ os) as [[k|]|] eqn:FS; try discriminate.
    - left. clear H. induction os as [|o r IH]; [discriminate|]. cbn [first_some] in FS.
      destruct (fatal readable home o) as [x|] eqn:Fo.
      + injection FS as ->. destruct o; unfold fatal in Fo; try discriminate.
        * destruct home as [h|]; [destruct (existsb _ (places h _)); discriminate|]. split; [reflexivity|]. eexists. now left.
        * destruct (store_named s); discriminate.
      + destruct (IH FS) as [A (f & B)]. split; [exact A|]. exists f. now right.
    - right. destruct rest as [|file args]; [discriminate|].
      destruct (String.eqb _ ""); [discriminate|]. destruct ((has_opt OTwo os || has_opt OMulti os) && String.eqb file "-")%bool eqn:B; [discriminate|].
      assert (K : forall cfg, passes' cfg file args = Undef -> c_two cfg = true /\ c_store cfg = LNone).
      { intros cfg G. unfold passes in G.
        destruct (proj2 (load_thm load boot eval func args (c_includes cfg) (c_js cfg))) as [E|[[cb s] E]]; rewrite E in G; cbn [gbind] in G; [discriminate|].
        destruct (c_two cfg).
        - destruct (c_store cfg); [now split| | | |]; (destruct (contents 0 file) as [g1 t1]; destruct (snd (parse _ g1 t1 _)); [discriminate|];
            destruct (contents 1 file) as [g2 t2]; discriminate).
        - destruct (contents 0 file) as [g1 t1]. destruct (c_store cfg); discriminate. }
      destruct (has_opt OMulti os) eqn:M.
      + exfalso. destruct (c_store (meaning readable home os)) eqn:Cs; try discriminate; cbn [gbind fst snd] in H; destruct (K _ H) as [_ K2]; congruence.
      + cbn [gbind fst snd] in H. destruct (K _ H) as [K1 K2]. cbn [meaning c_two c_store] in K1, K2. rewrite M, Bool.orb_false_r in K1. split; [|split; [|exact K2]].
        * apply existsb_exists in K1 as (o & Ho & E). destruct o; try discriminate. exact Ho.
        * intros Hin. assert (X : has_opt OMulti os = true) by (apply existsb_exists; now exists OMulti). congruence.
  Qed.
End Run.
