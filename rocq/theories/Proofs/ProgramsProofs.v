(** Handlers in front of others: what reaches the last one. *)
From Verif Require Import Base.Prelude Model.Osm Model.OsmFile Model.Handler Model.Pbf Model.Xml Model.Convert Model.Programs
  Spec.HandlerSpec Spec.ConvertSpec Spec.ProgramsSpec Proofs.HandlerProofs Proofs.Handler2Proofs Proofs.ConvertProofs.
From Verif Require Spec.PbfSpec Spec.XmlSpec Spec.XmlText.
From Verif Require Proofs.PbfTheorems Proofs.XmlTheorems Proofs.XmlFileProofs.

(* ---- the calls a handler makes ---- *)
Section Emit.
  Context {T : Type}.
  Fixpoint acts (l : list (act T)) (t : T) : list callback * T :=
    match l with
    | [] => ([], t)
    | ACall c :: r => let (cs, t') := acts r t in (c :: cs, t')
    | APut t1 :: r => acts r t1
    | AUB :: r => acts r t
    end.
  Variable prog : callback -> T -> list (act T).
  Fixpoint emits (cs : list callback) (t : T) : list callback * T :=
    match cs with
    | [] => ([], t)
    | c :: r => let (x, t1) := acts (prog c t) t in let (y, t2) := emits r t1 in (x ++ y, t2)
    end.
  Definition defined : Prop := forall c t, ~ In AUB (prog c t).

  Context {S : Type}.
  Variable next : callback -> S -> S * option halt.
  Lemma exec_acts l : ~ In AUB l -> forall t s,
    snd (fst (exec next l (t, s))) = snd (fst (feed next (fst (acts l t)) s)) /\
    snd (exec next l (t, s)) = snd (feed next (fst (acts l t)) s) /\
    (snd (exec next l (t, s)) = None -> fst (fst (exec next l (t, s))) = snd (acts l t)).
  Proof.
    induction l as [|[c|t1|] l IH]; intros N t s; [cbn; auto| | |destruct (N (or_introl eq_refl))].
    - cbn [exec acts fst snd]. assert (N1 : ~ In AUB l) by (intros H; apply N; now right).
      destruct (acts l t) as [cs t'] eqn:A. cbn [fst snd feed]. destruct (next c s) as [s1 [h|]]; [cbn; split; [|split]; auto; discriminate|].
      specialize (IH N1 t s1). rewrite A in IH. cbn [fst snd] in IH. destruct (feed next cs s1) as [[m s2] h]. exact IH.
    - cbn [exec acts fst snd]. apply IH. intros H; apply N; now right.
  Qed.
  Lemma stacked_feed : defined -> forall cs t s,
    snd (snd (fst (feed (stacked next prog) cs (t, s)))) = snd (fst (feed next (fst (emits cs t)) s)) /\
    snd (feed (stacked next prog) cs (t, s)) = snd (feed next (fst (emits cs t)) s).
  Proof.
    intros D. induction cs as [|c r IH]; intros t s; [split; reflexivity|].
    cbn [feed emits]. unfold stacked at 1 3. cbn [fst].
    destruct (exec_acts (prog c t) (D c t) t s) as (E1 & E2 & E3).
    destruct (acts (prog c t) t) as [x t1]. destruct (emits r t1) as [y t2] eqn:Y. cbn [fst snd] in *.
    rewrite HandlerProofs.feed_app.
    destruct (exec next (prog c t) (t, s)) as [[t3 s3] h3]. cbn [fst snd] in *.
    destruct (feed next x s) as [[m s4] h4]. cbn [fst snd] in *. subst s4 h4.
    destruct h3 as [h|]; [split; reflexivity|]. specialize (E3 eq_refl). subst t3.
    specialize (IH t1 s3). rewrite Y in IH. cbn [fst] in IH.
    destruct (feed (stacked next prog) r (t1, s3)) as [[m1 [t4 s4]] h4]. destruct (feed next y s3) as [[m2 s5] h5].
    cbn [fst snd] in *. exact IH.
  Qed.
  Lemma stacked_never : defined -> never_stops next -> never_stops (stacked next prog).
  Proof.
    intros D N c [t s] [t' s'] E. destruct (exec_acts (prog c t) (D c t) t s) as (_ & E2 & _).
    unfold stacked in E. cbn [fst] in E. rewrite E in E2. cbn [snd] in E2.
    pose proof (feed_never S next (fst (acts (prog c t) t)) N s). congruence.
  Qed.
End Emit.
Lemma emits_app T (prog : callback -> T -> list (act T)) a b : forall t,
  emits prog (a ++ b) t = let (x, t1) := emits prog a t in let (y, t2) := emits prog b t1 in (x ++ y, t2).
Proof.
  induction a as [|c a IH]; intros t; [cbn; destruct (emits prog b t); reflexivity|].
  cbn [app emits]. destruct (acts (prog c t) t) as [x t1]. rewrite IH. destruct (emits prog a t1) as [y t2].
  destruct (emits prog b t2) as [z t3]. now rewrite app_assoc.
Qed.
(** what a recorder behind the handler records *)
Lemma recorder_feed cs : forall l, feed recorder cs l = (cs, l ++ cs, None).
Proof.
  induction cs as [|c r IH]; intros l; [cbn; now rewrite app_nil_r|]. cbn [feed recorder]. rewrite IH. now rewrite <- app_assoc.
Qed.
Lemma emits_recorded T (prog : callback -> T -> list (act T)) cs t t' out : defined prog ->
  takes (stacked recorder prog) cs (t, []) (t', out) -> fst (emits prog cs t) = out.
Proof.
  intros D H. destruct (stacked_feed prog recorder D cs t []) as [E _]. rewrite H, recorder_feed in E. cbn in E. now symmetry.
Qed.

(* ---- EndTime and RangeFromHistory ---- *)
Lemma endtime_defined : defined endtime_prog.
Proof.
  intros [| |o| | |] l I; cbn in I; repeat destruct I as [I|I]; try discriminate; try contradiction.
  - destruct (l_get (obj_type o) l); cbn in I; repeat destruct I as [I|I]; try discriminate; contradiction.
  - destruct (l_get t l); cbn in I; repeat destruct I as [I|I]; try discriminate; contradiction.
Qed.
Lemma range_defined from to : defined (range_prog from to).
Proof.
  intros [| |o| | |] l I; cbn in I; repeat destruct I as [I|I]; try discriminate; try contradiction.
  destruct (in_range_test from to o); cbn in I; repeat destruct I as [I|I]; try discriminate; contradiction.
Qed.
Definition ended_runs (runs : list group) : list group := map (fun r => (fst r, ends (snd r))) runs.
Lemma takes_recorder cs l : takes recorder cs l (l ++ cs).
Proof. apply recorder_feed. Qed.
Lemma endtime_emits runs : (forall g, In g runs -> well_typed g) ->
  fst (emits endtime_prog (CInit :: flat_map bracket runs ++ [CFinal]) lasts_new) = CInit :: flat_map bracket (ended_runs runs) ++ [CFinal].
Proof.
  intros W. apply (emits_recorded _ _ _ _ lasts_new); [exact endtime_defined|]. apply endtime_correct; [exact W|].
  replace (flat_map bracket (ended_runs runs)) with (flat_map (fun r => bracket (fst r, ends (snd r))) runs); [apply takes_recorder|].
  unfold ended_runs. rewrite flat_map_concat_map, (flat_map_concat_map bracket), map_map. reflexivity.
Qed.
Lemma range_emits from to cs : fst (emits (range_prog from to) cs tt) =
  filter (fun c => match c with CObj o => in_range_test from to o | _ => true end) cs.
Proof. apply (emits_recorded _ _ _ _ tt); [apply range_defined|]. apply range_run. apply takes_recorder. Qed.
Lemma range_lives from to o : in_range_test from to o = lives_between from to o.
Proof. unfold in_range_test, lives_between. rewrite andb_comm. f_equal. f_equal. lia. Qed.
Definition ranged (from to : Z) (runs : list group) : list group := map (fun r => (fst r, filter (lives_between from to) (snd r))) runs.
Lemma filter_brackets from to runs :
  filter (fun c => match c with CObj o => in_range_test from to o | _ => true end) (flat_map bracket runs) = flat_map bracket (ranged from to runs).
Proof.
  induction runs as [|[t os] r IH]; [reflexivity|]. cbn [flat_map ranged map fst snd]. rewrite filter_app, IH. f_equal.
  unfold bracket. cbn [fst snd filter]. f_equal. rewrite filter_app. f_equal.
  induction os as [|o os I]; [reflexivity|]. cbn [map filter]. rewrite range_lives. destruct (lives_between from to o); cbn [map]; now rewrite I.
Qed.
Definition extract (from to : Z) (gs : list group) : list group := ranged from to (ended_runs (join gs)).
Lemma extract_feed S (out : callback -> S -> S * option halt) from to gs s : (forall g, In g gs -> well_typed g) ->
  let x := feed (range_handler out from to) (protocol gs ++ [CFinal]) (lasts_new, (tt, s)) in
  let y := feed out (CInit :: flat_map bracket (extract from to gs) ++ [CFinal]) s in
  snd (snd (snd (fst x))) = snd (fst y) /\ snd x = snd y.
Proof.
  intros W. cbv zeta. unfold range_handler.
  destruct (stacked_feed endtime_prog (stacked out (range_prog from to)) endtime_defined (protocol gs ++ [CFinal]) lasts_new (tt, s)) as [A1 A2].
  destruct (stacked_feed (range_prog from to) out (range_defined from to) (fst (emits endtime_prog (protocol gs ++ [CFinal]) lasts_new)) tt s) as [B1 B2].
  rewrite A1, A2, B1, B2. rewrite range_emits. unfold protocol. rewrite <- app_comm_cons.
  rewrite endtime_emits by (apply join_well_typed; exact W).
  cbn [filter]. rewrite filter_app, filter_brackets. split; reflexivity.
Qed.

(* ---- reading to the end ---- *)
Lemma parse_feed S (step : callback -> S -> S * option halt) gs s : never_stops step -> gs <> [] -> (forall g, In g gs -> well_typed g) ->
  (r_handler (fst (parse step gs None s)), snd (parse step gs None s)) =
  (snd (fst (feed step (protocol gs ++ [CFinal]) s)), snd (feed step (protocol gs ++ [CFinal]) s)).
Proof.
  intros N G W. pose proof (parse_refines S step gs s G W) as H. unfold observe in H.
  assert (H2 : (r_handler (fst (parse step gs None s)), snd (parse step gs None s)) =
     (snd (fst (finish step (feed step (protocol gs) s))), snd (finish step (feed step (protocol gs) s)))) by (rewrite <- H; reflexivity).
  rewrite H2. clear H H2. rewrite HandlerProofs.feed_app. pose proof (feed_never S step (protocol gs) N s) as F.
  destruct (feed step (protocol gs) s) as [[m s1] [h|]]; cbn [snd] in F.
  - unfold finish. destruct h as [[]|]; try reflexivity. now destruct F.
  - unfold finish. cbn [feed]. destruct (step CFinal s1) as [s2 [h|]]; reflexivity.
Qed.
Lemma join_id gs : neighbours_differ (map fst gs) -> join gs = gs.
Proof.
  induction gs as [|[t os] r IH]; [reflexivity|]. intros D. cbn [join]. rewrite IH; [|destruct r; [exact I|apply D]].
  destruct r as [|[t' os'] r]; [reflexivity|]. cbn in D. destruct D as [D _].
  destruct (otype_eqb t t') eqn:E; [|reflexivity]. destruct t, t'; try discriminate; now destruct D.
Qed.
Lemma extract_types from to gs : map fst (extract from to gs) = map fst (join gs).
Proof. unfold extract, ranged, ended_runs. rewrite !map_map. reflexivity. Qed.
Lemma extract_joined from to gs : join (extract from to gs) = extract from to gs.
Proof. apply join_id. rewrite extract_types. apply join_differ. Qed.
Lemma ends_typed os : forall o, In o (ends os) -> exists o', In o' os /\ obj_type o = obj_type o'.
Proof.
  induction os as [|a r IH]; intros o; [contradiction|]. destruct r as [|b r]; [intros [<-|[]]; exists a; cbn; auto|].
  rewrite ends_cons2. intros [<-|I].
  - exists a. split; [now left|]. destruct (obj_id b =? obj_id a); [destruct a; reflexivity|reflexivity].
  - destruct (IH o I) as (o' & A & B). exists o'. split; [now right|exact B].
Qed.
Lemma extract_typed from to gs : (forall g, In g gs -> well_typed g) -> forall g, In g (extract from to gs) -> well_typed g.
Proof.
  intros W g I. unfold extract, ranged, ended_runs in I. rewrite map_map, in_map_iff in I. destruct I as (x & <- & I). cbn [fst snd].
  destruct (join_well_typed gs W x I) as [A B]. split; [exact A|]. cbn [fst snd]. intros o J. apply filter_In in J as [J _].
  destruct (ends_typed _ _ J) as (o' & J' & ->). now apply B.
Qed.
Lemma extract_some from to gs : gs <> [] -> extract from to gs <> [].
Proof.
  intros N E. apply (f_equal (map fst)) in E. rewrite extract_types in E. destruct gs as [|[t os] r]; [now apply N|].
  cbn [join] in E. destruct (join r) as [|[t' os'] r']; [discriminate|]. destruct (otype_eqb t t'); discriminate.
Qed.
Lemma extract_objects from to (r : reading) e : objects_of (extract from to (fst r), e) = selected from to r.
Proof.
  unfold objects_of, selected, extract, ranged, ended_runs. cbn [fst]. rewrite map_map. cbn [fst snd].
  rewrite flat_map_concat_map, map_map, <- flat_map_concat_map. reflexivity.
Qed.
(** the program is a conversion of the extract *)
Lemma extract_parse S (out : callback -> S -> S * option halt) from to gs s : never_stops out -> gs <> [] -> (forall g, In g gs -> well_typed g) ->
  let x := parse (range_handler out from to) gs None (lasts_new, (tt, s)) in
  let y := parse out (extract from to gs) None s in
  snd (snd (r_handler (fst x))) = r_handler (fst y) /\ snd x = snd y.
Proof.
  intros N G W. cbv zeta.
  assert (N2 : never_stops (range_handler out from to)) by (apply stacked_never; [exact endtime_defined|]; apply stacked_never; [apply range_defined|exact N]).
  pose proof (parse_feed _ _ gs (lasts_new, (tt, s)) N2 G W) as A.
  pose proof (parse_feed _ _ (extract from to gs) s N (extract_some from to gs G) (extract_typed from to gs W)) as B.
  destruct (extract_feed S out from to gs s W) as [C D]. apply pair_equal_spec in A as [A1 A2]. apply pair_equal_spec in B as [B1 B2].
  rewrite A1, A2, B1, B2.
  rewrite C, D. unfold protocol. rewrite extract_joined. split; reflexivity.
Qed.
Lemma range_pbf_is_convert K c m sched from to r : file_read r -> read_fully r -> fst r <> [] ->
  range_to_pbf K c m sched from to r = convert_to_pbf K c m sched (extract from to (fst r), Ok tt).
Proof.
  intros F R G. destruct (file_typed r F) as [W _]. unfold range_to_pbf, convert_to_pbf, input_read. rewrite R. cbn [fst snd].
  destruct (extract_parse _ (pbf_out K c m) from to (fst r) (pwriter_new (mkOfd [] sched)) (pbf_never K c m) G W) as [A B].
  destruct (parse (range_handler _ _ _) _ _ _) as [x1 h1]. destruct (parse (pbf_out K c m) _ _ _) as [x2 h2]. cbn [fst snd] in *.
  subst h2. destruct (r_handler x1) as [l [u w]]. cbn [snd] in A. subst w. reflexivity.
Qed.
Lemma range_xml_is_convert L (lib : L -> wcall -> L * bool) free l ft g m from to r : file_read r -> read_fully r -> fst r <> [] ->
  range_to_xml lib free l ft g m from to r = convert_to_xml lib free l ft g m (extract from to (fst r), Ok tt).
Proof.
  intros F R G. destruct (file_typed r F) as [W _]. unfold range_to_xml, convert_to_xml, input_read. rewrite R. cbn [fst snd].
  destruct (extract_parse _ (xml_out lib free ft g m) from to (fst r) (mkXO l None false) (xml_never lib free ft g m) G W) as [A B].
  destruct (parse (range_handler _ _ _) _ _ _) as [x1 h1]. destruct (parse (xml_out _ _ _ _ _) _ _ _) as [x2 h2]. cbn [fst snd] in *.
  subst h2. destruct (r_handler x1) as [l1 [u w]]. cbn [snd] in A. subst w. reflexivity.
Qed.
