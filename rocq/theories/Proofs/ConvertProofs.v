(** Conversions: the writers driven by a reader write the objects of the file. *)
From Verif Require Import Base.Prelude Model.Osm Model.OsmFile Model.Handler Model.Pbf Model.Xml Model.Convert
  Spec.HandlerSpec Spec.ConvertSpec Proofs.HandlerProofs Proofs.ConvertNoStop.
From Verif Require Spec.PbfSpec Spec.XmlSpec Spec.XmlText.
From Verif Require Proofs.PbfTheorems Proofs.XmlTheorems.

(* ---- what the readers hand out ---- *)
Lemma dense_nodes n b d : forall e s o, In o (fst (decode_dense n b d e s)) -> obj_type o = NODE.
Proof.
  induction n as [|n IH]; intros e s o; cbn [decode_dense]; [contradiction|].
  destruct (decode_dense1 b d e s) as [so|x| |] eqn:E; try (cbn [fst In]; contradiction). destruct so as [s' o'].
  specialize (IH (e + 1) s'). destruct (decode_dense n b d (e + 1) s') as [os r]. cbn [fst In]. intros [<-|H]; [|now apply (IH o)].
  revert E. unfold decode_dense1.
  repeat match goal with |- obind ?x _ = _ -> _ => destruct x as [?|?| |]; cbn [obind]; try discriminate end.
  all: repeat match goal with |- context[let '(_, _) := ?x in _] => destruct x end.
  all: repeat match goal with |- obind ?x _ = _ -> _ => destruct x as [?|?| |]; cbn [obind]; try discriminate end.
  all: repeat match goal with |- context[let '(_, _) := ?x in _] => destruct x end.
  all: intros H; injection H; intros; subst; reflexivity.
Qed.

Lemma list_typed A (f : A -> outcome object) t l : (forall x o, f x = Ok o -> obj_type o = t) ->
  forall o, In o (fst (decode_list f l)) -> obj_type o = t.
Proof.
  intros H. induction l as [|x r IH]; intros o; cbn [decode_list]; [contradiction|].
  destruct (f x) as [y|?| |] eqn:E; try (cbn [fst In]; contradiction).
  destruct (decode_list f r) as [os e]. cbn [fst In]. intros [<-|I]; [now apply (H x)|now apply IH].
Qed.
Lemma node_typed b n o : decode_node b n = Ok o -> obj_type o = NODE.
Proof. unfold decode_node. destruct (decode_common _ _ _); cbn; try discriminate. destruct (decode_pos _ _ _); cbn; try discriminate. intros H; now injection H as <-. Qed.
Lemma way_typed b n o : decode_way b n = Ok o -> obj_type o = WAY.
Proof. unfold decode_way. destruct (decode_common _ _ _); cbn; try discriminate. intros H; now injection H as <-. Qed.
Lemma rel_typed b n o : decode_relation b n = Ok o -> obj_type o = RELATION.
Proof. unfold decode_relation. destruct (decode_common _ _ _); cbn; try discriminate. destruct (decode_members _ _ _ _ _); cbn; try discriminate. intros H; now injection H as <-. Qed.
Lemma group_typed b g x e : parse_group b g = (Some x, e) -> well_typed x.
Proof.
  unfold parse_group, well_typed, object_type. destruct (g_dense g) as [d|].
  { match goal with |- context[decode_dense ?a ?b ?c ?e ?f] => pose proof (dense_nodes a b c e f) as H; destruct (decode_dense a b c e f) end.
    intros E; injection E as <- _; cbn [fst snd] in *; auto. }
  destruct (g_ways g) as [|y l].
  2:{ pose proof (list_typed _ (decode_way b) WAY (y :: l) (way_typed b)) as H; destruct (decode_list (decode_way b) (y :: l)).
      intros E; injection E as <- _; cbn [fst snd] in *; auto. }
  destruct (g_rels g) as [|y l].
  2:{ pose proof (list_typed _ (decode_relation b) RELATION (y :: l) (rel_typed b)) as H; destruct (decode_list (decode_relation b) (y :: l)).
      intros E; injection E as <- _; cbn [fst snd] in *; auto. }
  destruct (g_nodes g) as [|y l]; [discriminate|].
  pose proof (list_typed _ (decode_node b) NODE (y :: l) (node_typed b)) as H; destruct (decode_list (decode_node b) (y :: l)).
  intros E; injection E as <- _; cbn [fst snd] in *; auto.
Qed.
Lemma groups_typed b gs g : In g (fst (parse_groups b gs)) -> well_typed g.
Proof.
  induction gs as [|x r IH]; cbn [parse_groups]; [contradiction|].
  destruct (parse_group b x) as [[y|] e] eqn:E; [|contradiction]. apply group_typed in E.
  destruct e as [[]|?| |]; try (cbn; intros [<-|[]]; exact E).
  destruct (parse_groups b r) as [ys e']. cbn [fst] in *. intros [<-|I]; auto.
Qed.
Lemma pbf_typed K ty f g : In g (pr_groups (read_pbf K ty f)) -> well_typed g.
Proof.
  unfold read_pbf. destruct (read_blobs K f) as [bs e]. generalize meta_new.
  induction bs as [|[t d] r IH]; intros m; cbn [parse_blobs]; [contradiction|].
  destruct (String.eqb t "OSMData").
  - destruct (par_pb K d) as [b|]; [|contradiction]. pose proof (groups_typed b (pb_groups b) g) as G.
    destruct (parse_groups b (pb_groups b)) as [gs x]; cbn [fst] in G. destruct x as [[]|?| |]; cbn [pr_groups]; auto.
    rewrite in_app_iff. intros [I|I]; eauto.
  - destruct (String.eqb t "OSMHeader"); [|apply IH]. destruct (par_hb K d) as [h|]; [|contradiction].
    destruct (parse_header ty h m) as [m'|?| |]; try contradiction. apply IH.
Qed.

Definition xtyped (st : xstate) : Prop := forall g, In g (x_groups st) -> well_typed g.
Lemma xt_try A st (r : outcome A) f : xtyped st -> (forall a, xtyped (fst (f a))) -> xtyped (fst (x_try st r f)).
Proof. intros H G. destruct r; cbn; auto. Qed.
Lemma xt_emit st t os : xtyped st -> well_typed (t, os) -> xtyped (x_emit (t, os) st).
Proof. intros H W g. cbn. rewrite in_app_iff. intros [I|[<-|[]]]; auto. Qed.
Lemma xt_event e st : xtyped st -> xtyped (fst (x_event e st)).
Proof.
  intros H.
  assert (E : forall t, object_type t -> xtyped (x_emit (t, []) st)).
  { intros t T. apply xt_emit; auto. split; [exact T|contradiction]. }
  destruct e as [n a|n]; cbn [x_event].
  - unfold start_element. destruct (x_ctx st); try exact H.
    + destruct (is_root_name n); [|exact H]. apply xt_try; [exact H|]. intros m; exact H.
    + unfold start_top, object_type in *. cbv zeta.
      destruct (String.eqb n "node"); [apply xt_try; [|intros ?]; exact (E NODE ltac:(auto))|].
      destruct (String.eqb n "way"); [apply xt_try; [|intros ?]; exact (E WAY ltac:(auto))|].
      destruct (String.eqb n "relation"); [apply xt_try; [|intros ?]; exact (E RELATION ltac:(auto))|].
      destruct (String.eqb n "bounds"); [apply xt_try; [|intros ?]; exact H|].
      destruct (String.eqb n "delete"); exact H.
    + unfold start_in_way. destruct (String.eqb n "nd"); [|exact H].
      destruct (x_cur (x_child st)); try exact H. apply xt_try; [exact H|intros ?; exact H].
    + unfold start_in_relation. destruct (String.eqb n "member"); [|exact H].
      destruct (x_cur (x_child st)); try exact H. apply xt_try; [exact H|]. intros [[t ref] role].
      destruct (add_member _ _ _ _) as [ms [x|]]; exact H.
  - unfold end_element. destruct (x_ctx st); try exact H.
    + destruct (is_root_name n); [exact H|]. destruct (String.eqb n "delete"); exact H.
    + assert (T : object_type (obj_type (x_cur st))) by (unfold object_type; destruct (x_cur st); cbn; auto).
      intros g; cbn. rewrite in_app_iff. intros [I|[<-|[]]]; auto. split; [exact T|]. cbn. intros o [<-|[]]; reflexivity.
    + assert (T : object_type (obj_type (x_cur st))) by (unfold object_type; destruct (x_cur st); cbn; auto).
      intros g; cbn. rewrite in_app_iff. intros [I|[<-|[]]]; auto. split; [exact T|]. cbn. intros o [<-|[]]; reflexivity.
    + assert (T : object_type (obj_type (x_cur st))) by (unfold object_type; destruct (x_cur st); cbn; auto).
      intros g; cbn. rewrite in_app_iff. intros [I|[<-|[]]]; auto. split; [exact T|]. cbn. intros o [<-|[]]; reflexivity.
Qed.
Lemma xt_events es : forall st, xtyped st -> xtyped (fst (x_events es st)).
Proof.
  induction es as [|e r IH]; intros st H; cbn [x_events]; [exact H|].
  pose proof (xt_event e st H) as G. destruct (x_event e st) as [st' [u|x| |]]; cbn [fst] in *; auto.
Qed.
Lemma xt_read E (expat : E -> string -> bool -> E * list event * bool) e l : xtyped (fst (read_xml expat e l)).
Proof.
  unfold read_xml. assert (H : xtyped x_new) by (intros g []). revert e H. generalize x_new.
  assert (B : forall e b d st, xtyped st -> xtyped (fst (snd (parse_buffer expat e b d st)))).
  { intros e b d st H. unfold parse_buffer. destruct (expat e b d) as [[e' evs] ok]. pose proof (xt_events evs st H) as G.
    destruct (x_events evs st) as [st' [u|x| |]]; cbn [fst snd] in *; auto. }
  induction l as [|b r IH]; intros st e H; cbn [parse_loop]; [auto|].
  destruct b as [b|]; [|exact H]. destruct b as [|c s]; [auto|].
  specialize (B e (String c s) false st H).
  destruct (parse_buffer expat e (String c s) false st) as [e' [st' [u|x| |]]]; cbn [fst snd] in *; auto.
Qed.
Lemma file_typed r : file_read r -> (forall g, In g (fst r) -> well_typed g) /\ nostop (snd r).
Proof.
  intros [K ty f|E expat e l]; cbn [fst snd].
  - split; [apply pbf_typed|apply ns_read_pbf].
  - split; [apply xt_read|apply ns_read_xml].
Qed.

(* ---- the callbacks of a file ---- *)
Definition objs_of (cs : list callback) : list object := flat_map (fun c => match c with CObj o => [o] | _ => [] end) cs.
Lemma objs_app a b : objs_of (a ++ b) = objs_of a ++ objs_of b.
Proof. apply flat_map_app. Qed.
Lemma objs_map os : objs_of (map CObj os) = os.
Proof. induction os as [|o r IH]; cbn; [reflexivity|]. unfold objs_of in IH. now rewrite IH. Qed.
Lemma objs_protocol gs : objs_of (protocol gs) = flat_map snd gs.
Proof.
  unfold protocol. rewrite <- (join_objects gs). change (objs_of (flat_map bracket (join gs)) = flat_map snd (join gs)).
  induction (join gs) as [|[t os] r IH]; [reflexivity|]. cbn [flat_map]. rewrite objs_app, IH. f_equal.
  unfold bracket. cbn [fst snd]. change (objs_of (map CObj os ++ [CAfter t]) = os). rewrite objs_app, objs_map. apply app_nil_r.
Qed.
(** a handler that only looks at init, the objects and final *)
Definition quiet {S} (step : callback -> S -> S * option halt) : Prop :=
  (forall t s, step (CBefore t) s = (s, None)) /\ (forall t s, step (CAfter t) s = (s, None)).
Fixpoint feed_objs {S} (step : callback -> S -> S * option halt) (os : list object) (s : S) : S * option halt :=
  match os with
  | [] => (s, None)
  | o :: r => match step (CObj o) s with (s', None) => feed_objs step r s' | x => x end
  end.
Lemma feed_quiet S (step : callback -> S -> S * option halt) cs : quiet step ->
  (forall c, In c cs -> match c with CBefore _ | CAfter _ | CObj _ => True | _ => False end) ->
  forall s, (snd (fst (feed step cs s)), snd (feed step cs s)) = feed_objs step (objs_of cs) s.
Proof.
  intros [Q1 Q2]. induction cs as [|c r IH]; intros H s; [reflexivity|].
  assert (Hr : forall c, In c r -> match c with CBefore _ | CAfter _ | CObj _ => True | _ => False end) by (intros; apply H; right; auto).
  specialize (IH Hr). pose proof (H c (or_introl eq_refl)) as Hc. cbn [feed].
  destruct c; try contradiction.
  - rewrite Q1. cbn [objs_of flat_map app]. specialize (IH s). destruct (feed step r s) as [[m s''] h]. exact IH.
  - change (objs_of (CObj o :: r)) with (o :: objs_of r). cbn [feed_objs].
    destruct (step (CObj o) s) as [s' [h|]]; [reflexivity|]. specialize (IH s'). destruct (feed step r s') as [[m s''] h]. exact IH.
  - rewrite Q2. cbn [objs_of flat_map app]. specialize (IH s). destruct (feed step r s) as [[m s''] h]. exact IH.
Qed.
Lemma brackets_quiet runs c : In c (flat_map bracket runs) -> match c with CBefore _ | CAfter _ | CObj _ => True | _ => False end.
Proof.
  rewrite in_flat_map. intros ([t os] & _ & I). unfold bracket in I. cbn [fst snd] in I.
  destruct I as [<-|I]; [exact Logic.I|]. rewrite in_app_iff, in_map_iff in I. destruct I as [(o & <- & _)|[<-|[]]]; exact Logic.I.
Qed.
(** the three stages *)
Definition staged {S} (step : callback -> S -> S * option halt) (os : list object) (s : S) : S * option halt :=
  match step CInit s with
  | (s1, None) => match feed_objs step os s1 with (s2, None) => step CFinal s2 | x => x end
  | x => x
  end.
Definition never_stops {S} (step : callback -> S -> S * option halt) : Prop := forall c s s', step c s <> (s', Some (HExn EStopReading)).
Lemma feed_objs_never S (step : callback -> S -> S * option halt) os : never_stops step -> forall s s', feed_objs step os s <> (s', Some (HExn EStopReading)).
Proof.
  intros N. induction os as [|o r IH]; intros s s'; cbn [feed_objs]; [discriminate|].
  pose proof (N (CObj o) s) as H. destruct (step (CObj o) s) as [s1 [h|]]; auto.
Qed.
Lemma parse_staged S (step : callback -> S -> S * option halt) gs s : quiet step -> never_stops step ->
  gs <> [] -> (forall g, In g gs -> well_typed g) ->
  (r_handler (fst (parse step gs None s)), snd (parse step gs None s)) = staged step (flat_map snd gs) s.
Proof.
  intros Q N G W. pose proof (parse_refines S step gs s G W) as H. unfold observe in H.
  assert (H2 : (r_handler (fst (parse step gs None s)), snd (parse step gs None s)) =
     (snd (fst (finish step (feed step (protocol gs) s))), snd (finish step (feed step (protocol gs) s)))) by (rewrite <- H; reflexivity).
  rewrite H2. clear H H2. unfold staged. rewrite <- (objs_protocol gs). unfold protocol at 1 2. cbn [feed].
  change (objs_of (protocol gs)) with (objs_of (flat_map bracket (join gs))).
  pose proof (N CInit s) as N1. destruct (step CInit s) as [s1 [h|]].
  { unfold finish. destruct h as [[]|]; try reflexivity. now destruct (N1 s1). }
  pose proof (feed_quiet S step (flat_map bracket (join gs)) Q (brackets_quiet _) s1) as F.
  pose proof (feed_objs_never S step (objs_of (flat_map bracket (join gs))) N s1) as N2.
  destruct (feed step (flat_map bracket (join gs)) s1) as [[m s2] h]; cbn [fst snd] in F. rewrite <- F in *.
  unfold finish. destruct h as [[[]|]|]; try reflexivity; [now destruct (N2 s2)|]. destruct (step CFinal s2); reflexivity.
Qed.
Lemma feed_never S (step : callback -> S -> S * option halt) cs : never_stops step -> forall s, snd (feed step cs s) <> Some (HExn EStopReading).
Proof.
  intros N. induction cs as [|c r IH]; intros s; cbn [feed]; [discriminate|].
  pose proof (N c s) as H. destruct (step c s) as [s1 [h|]]; [cbn; intros E; injection E as ->; exact (H _ eq_refl)|].
  specialize (IH s1). destruct (feed step r s1) as [[m s2] h]; exact IH.
Qed.
(** a failing reader is noticed *)
Lemma parse_fails S (step : callback -> S -> S * option halt) gs e s : never_stops step -> e <> EStopReading ->
  (forall g, In g gs -> well_typed g) -> exists h, snd (parse step gs (Some e) s) = Some h /\ h <> HExn EStopReading.
Proof.
  intros N Ne W. destruct gs as [|g gs].
  { cbn. unfold parse; cbn. destruct e; try congruence; eexists; (split; [reflexivity|congruence]). }
  pose proof (parse_error_refines S step (g :: gs) e s ltac:(discriminate) W Ne) as H.
  assert (H2 : snd (parse step (g :: gs) (Some e) s) = snd (observe (parse step (g :: gs) (Some e) s))) by reflexivity.
  rewrite H2, H. clear H H2. pose proof (feed_never S step (protocol_open (g :: gs)) N s) as F.
  destruct (feed step (protocol_open (g :: gs)) s) as [[m s'] [h|]]; cbn [snd] in *.
  - unfold finish. destruct h as [[]|]; try (eexists; split; [reflexivity|congruence]). congruence.
  - eexists; split; [reflexivity|congruence].
Qed.
Section Never.
  Context {S : Type}.
  Variable step : callback -> S -> S * option halt.
  Hypothesis N : never_stops step.
  Definition goes_on (x : rstate S * option halt) : Prop := snd x <> Some (HExn EStopReading).
  Lemma on_call c st : goes_on (call step c st).
  Proof.
    unfold goes_on, call. specialize (N c (r_handler st)). destruct (step c (r_handler st)) as [s' r]. cbn [snd]. intros ->. exact (N s' eq_refl).
  Qed.
  Lemma on_then x f : goes_on x -> (forall st, goes_on (f st)) -> goes_on (andthen x f).
  Proof. destruct x as [st [h|]]; intros A B; [exact A|apply B]. Qed.
  Lemma on_switch t st : goes_on (call_after_and_before step t st).
  Proof.
    unfold call_after_and_before. destruct (negb _); [|discriminate].
    apply on_then; [unfold call_after; destruct (r_last st); first [apply on_call|discriminate]|]. intros st1.
    apply on_then; [unfold call_before; destruct t; first [apply on_call|discriminate]|discriminate].
  Qed.
  Lemma on_objects os : forall st, goes_on (call_objects step os st).
  Proof. induction os as [|o os IH]; intros st; [discriminate|]. apply on_then; [apply on_call|exact IH]. Qed.
  Lemma on_groups gs : forall st, goes_on (read_groups step gs st).
  Proof.
    induction gs as [|[t os] gs IH]; intros st; [discriminate|]. apply on_then; [apply on_switch|]. intros st1. apply on_then; [apply on_objects|exact IH].
  Qed.
End Never.

(* ---- PBF output ---- *)
Lemma pbf_quiet K c m : quiet (pbf_out K c m).
Proof. split; reflexivity. Qed.
Lemma pbf_never K c m : never_stops (pbf_out K c m).
Proof.
  intros x w w'. unfold pbf_out, halting. destruct x; try discriminate.
  - pose proof (ns_init K c m w) as H. destruct (pbf_init K c m w); try discriminate. congruence.
  - destruct (ns_object K c o w) as [H1 H2]. destruct (pbf_object K c o w) as [[w1 [e|]]|e| |]; try discriminate; [|congruence].
    specialize (H2 _ _ eq_refl). congruence.
  - pose proof (ns_final K c w) as H. destruct (pbf_final K c w); try discriminate. congruence.
Qed.
Lemma pbf_feed K c m os : forall w, feed_objs (pbf_out K c m) os w =
  match pbf_objects K c os w with
  | Ok w' => (w', None)
  | Throw e => (fst (feed_objs (pbf_out K c m) os w), Some (HExn e))
  | _ => (fst (feed_objs (pbf_out K c m) os w), Some HUB)
  end.
Proof.
  induction os as [|o r IH]; intros w; [reflexivity|]. cbn [feed_objs pbf_objects pbf_out].
  destruct (pbf_object K c o w) as [[w1 [e|]]|e| |]; cbn [obind fst]; try reflexivity. apply IH.
Qed.
Definition merge {A} (r : outcome A) : outcome A := match r with AssertFail => UB | x => x end.
Lemma pbf_staged K c m sched os :
  match staged (pbf_out K c m) os (pwriter_new (mkOfd [] sched)) with
  | (w, None) => Ok (fd_out (w_fd w))
  | (_, Some (HExn e)) => Throw e
  | (_, Some HUB) => UB
  end = merge (write_pbf K c m os sched).
Proof.
  unfold staged, write_pbf. cbn [pbf_out].
  destruct (pbf_init K c m (pwriter_new (mkOfd [] sched))) as [w1|e| |]; cbn [halting obind merge]; try reflexivity.
  pose proof (pbf_feed K c m os w1) as F. destruct (feed_objs (pbf_out K c m) os w1) as [w2 h]. cbn [fst] in F.
  destruct (pbf_objects K c os w1) as [w3|e| |]; [injection F as -> ->|injection F as ->|injection F as ->|injection F as ->]; cbn [obind merge]; try reflexivity.
  destruct (pbf_final K c w3) as [w4|e| |]; cbn [halting obind merge]; reflexivity.
Qed.
Lemma typed_pbf_is_write K c m sched (r : reading) : (forall g, In g (fst r) -> well_typed g) -> read_fully r -> fst r <> [] ->
  convert_to_pbf K c m sched r = merge (write_pbf K c m (objects_of r) sched).
Proof.
  intros T R N. unfold convert_to_pbf, input_read. rewrite R.
  pose proof (parse_staged _ (pbf_out K c m) (fst r) (pwriter_new (mkOfd [] sched)) (pbf_quiet K c m) (pbf_never K c m) N T) as P.
  destruct (parse (pbf_out K c m) (fst r) None (pwriter_new (mkOfd [] sched))) as [st h]; cbn [fst snd] in P.
  rewrite <- (pbf_staged K c m sched (objects_of r)). unfold objects_of. rewrite <- P. destruct h as [[e|]|]; reflexivity.
Qed.
Lemma to_pbf_is_write K c m sched r : file_read r -> read_fully r -> fst r <> [] ->
  convert_to_pbf K c m sched r = merge (write_pbf K c m (objects_of r) sched).
Proof. intros F. destruct (file_typed r F) as [T _]. now apply typed_pbf_is_write. Qed.
Lemma to_pbf_complete K c m sched r file : file_read r -> convert_to_pbf K c m sched r = Ok file -> read_fully r.
Proof.
  intros F. destruct (file_typed r F) as [T NS]. unfold convert_to_pbf, input_read, read_fully.
  destruct (snd r) as [[]|e| |]; [reflexivity| | |].
  - destruct (parse_fails _ (pbf_out K c m) (fst r) e (pwriter_new (mkOfd [] sched)) (pbf_never K c m)) as (h & H & _); auto; [congruence|].
    destruct (parse (pbf_out K c m) (fst r) (Some e) (pwriter_new (mkOfd [] sched))) as [st h']; cbn [snd] in H. subst h'. destruct h; discriminate.
  - pose proof (on_groups _ (pbf_never K c m) (fst r)) as G. unfold goes_on, andthen in *.
    match goal with |- context [read_groups ?a ?b ?d] => specialize (G d); destruct (read_groups a b d) as [st [[[]|]|]] end;
      cbn [snd] in G; first [discriminate|destruct (G eq_refl)].
  - pose proof (on_groups _ (pbf_never K c m) (fst r)) as G. unfold goes_on, andthen in *.
    match goal with |- context [read_groups ?a ?b ?d] => specialize (G d); destruct (read_groups a b d) as [st [[[]|]|]] end;
      cbn [snd] in G; first [discriminate|destruct (G eq_refl)].
Qed.

(* ---- XML output ---- *)
Section Xml.
  Context {L : Type}.
  Variables (lib : L -> wcall -> L * bool) (free : L -> L * bool).
  Lemma exec_app cs1 cs2 : forall l, exec_calls lib l (cs1 ++ cs2) =
    match exec_calls lib l cs1 with (l1, Ok _) => exec_calls lib l1 cs2 | x => x end.
  Proof.
    induction cs1 as [|c r IH]; intros l; cbn [app exec_calls]; [reflexivity|].
    destruct (lib l c) as [l' [|]]; [apply IH|reflexivity].
  Qed.
  Lemma exec_end cs : forall l, snd (exec_calls lib l cs) = Ok tt \/ snd (exec_calls lib l cs) = Throw EXmlWrite.
  Proof. induction cs as [|c r IH]; intros l; cbn [exec_calls]; [auto|]. destruct (lib l c) as [l' [|]]; cbn; auto. Qed.
  Variables (ft : ftype) (g : string) (m : meta).
  Let step := xml_out lib free ft g m.
  Lemma xml_quiet : quiet step.
  Proof. split; reflexivity. Qed.
  Lemma xml_do_never s op cs s' : nostop cs -> xml_do lib s op cs <> (s', Some (HExn EStopReading)).
  Proof.
    intros N. unfold xml_do. destruct cs as [cs|e| |]; try discriminate; [|congruence].
    pose proof (exec_end cs (xo_lib s)) as H. destruct (exec_calls lib (xo_lib s) cs) as [l r]; cbn [snd] in H.
    destruct H as [->| ->]; discriminate.
  Qed.
  Lemma xml_never : never_stops step.
  Proof.
    intros x s s'. unfold step, xml_out. destruct x; try discriminate.
    - apply xml_do_never. apply ns_ok.
    - cbv zeta. apply xml_do_never. apply ns_bind; [apply ns_wobject|]. intros; apply ns_ok.
    - match goal with |- context[xml_do lib s None ?x] => pose proof (xml_do_never s None x) as H; destruct (xml_do lib s None x) as [s1 [h|]] end.
      + apply H. apply ns_ok.
      + destruct (free (xo_lib s1)); discriminate.
  Qed.
  (** the writer after some objects *)
  Lemma xml_feed os : forall l op fl, 
    match xml_objects ft op os with
    | Ok (cs, op') => match exec_calls lib l cs with
                      | (l', Ok _) => feed_objs step os (mkXO l op fl) = (mkXO l' op' fl, None)
                      | (l', Throw e) => exists op1, feed_objs step os (mkXO l op fl) = (mkXO l' op1 fl, Some (HExn e))
                      | _ => False
                      end
    | _ => exists s h, feed_objs step os (mkXO l op fl) = (s, Some h)
    end.
  Proof.
    induction os as [|o r IH]; intros l op fl; [reflexivity|]. cbn [xml_objects feed_objs].
    set (op1 := if ft_eqb ft FtChange then Some (op_of (obj_attrs o)) else op).
    assert (E : step (CObj o) (mkXO l op fl) = xml_do lib (mkXO l op fl) op1 (obind (write_object ft o) (fun c => Ok (open_close_op_tag op1 op ++ c))))
      by reflexivity.
    rewrite E. clear E.
    destruct (write_object ft o) as [c|e| |] eqn:W; cbn [obind xml_do]; try (eexists; eexists; reflexivity).
    cbn [xo_lib xo_flushed]. 
    pose proof (exec_end (open_close_op_tag op1 op ++ c) l) as D.
    destruct (exec_calls lib l (open_close_op_tag op1 op ++ c)) as [l1 r1] eqn:X; cbn [snd] in D.
    destruct D as [->| ->].
    - specialize (IH l1 op1 fl). destruct (xml_objects ft op1 r) as [[cs op2]|?| |]; cbn [obind fst snd]; try exact IH.
      rewrite app_assoc, exec_app, X. exact IH.
    - destruct (xml_objects ft op1 r) as [[cs op2]|?| |]; cbn [obind fst snd]; try (eexists; eexists; reflexivity).
      rewrite app_assoc, exec_app, X. eexists; reflexivity.
  Qed.
  Definition xml_final_calls (op : option ascii) : list wcall := (if ft_eqb ft FtChange then open_close_op_tag None op else []) ++ [WEnd].
  Lemma xml_staged l os l' fl :
    write_xml lib free l ft g (mt_bounds m) os = (l', fl, Ok tt) <->
    exists op, staged step os (mkXO l None false) = (mkXO l' op fl, None).
  Proof.
    unfold write_xml, xml_calls, staged. unfold step at 1, xml_out at 1. cbn [xml_do xo_lib xo_op xo_flushed].
    pose proof (exec_end (xml_init ft g (mt_bounds m)) l) as D.
    destruct (exec_calls lib l (xml_init ft g (mt_bounds m))) as [l1 r1] eqn:X; cbn [snd] in D.
    destruct D as [->| ->].
    2:{ split; [|intros (op & H); discriminate H].
        destruct (xml_objects ft None os) as [[cs op]|?| |]; cbn [obind]; try discriminate.
        rewrite exec_app, X. discriminate. }
    pose proof (xml_feed os l1 None false) as F.
    destruct (xml_objects ft None os) as [[cs op]|e| |]; cbn [obind fst snd].
    2-4: destruct F as (s & h & ->); split; [discriminate|intros (op & H); discriminate H].
    rewrite exec_app, X, exec_app. destruct (exec_calls lib l1 cs) as [l2 [u|e| |]]; try contradiction.
    2:{ destruct F as (op1 & ->). split; [discriminate|intros (o & H); discriminate H]. }
    rewrite F. unfold step, xml_out. cbn [xml_do xo_lib xo_op xo_flushed].
    pose proof (exec_end (xml_final_calls op) l2) as D. unfold xml_final_calls in D.
    destruct (exec_calls lib l2 _) as [l3 r3]; cbn [snd] in D. destruct D as [->| ->].
    - cbn [xo_lib]. destruct (free l3) as [l4 fl4]. split.
      + intros H. injection H as -> ->. now exists None.
      + intros (o & H). injection H as -> _ ->. reflexivity.
    - split; [discriminate|intros (o & H); discriminate H].
  Qed.
  Lemma typed_xml_is_write l (r : reading) l' fl : (forall g, In g (fst r) -> well_typed g) -> read_fully r -> fst r <> [] ->
    convert_to_xml lib free l ft g m r = (l', fl, Ok tt) <-> write_xml lib free l ft g (mt_bounds m) (objects_of r) = (l', fl, Ok tt).
  Proof.
    intros T R N. unfold convert_to_xml, input_read. rewrite R.
    pose proof (parse_staged _ step (fst r) (mkXO l None false) xml_quiet xml_never N T) as P. fold step.
    destruct (parse step (fst r) None (mkXO l None false)) as [st h]; cbn [fst snd] in P.
    rewrite xml_staged. unfold objects_of. rewrite <- P. destruct h as [[e|]|].
    - split; [discriminate|intros (o & H); discriminate H].
    - split; [discriminate|intros (o & H); discriminate H].
    - destruct (r_handler st) as [a b c]. cbn [xo_lib xo_flushed]. split.
      + intros H; injection H as -> ->. now exists b.
      + intros (o & H). injection H as -> _ ->. reflexivity.
  Qed.
  Lemma to_xml_is_write l r l' fl : file_read r -> read_fully r -> fst r <> [] ->
    convert_to_xml lib free l ft g m r = (l', fl, Ok tt) <-> write_xml lib free l ft g (mt_bounds m) (objects_of r) = (l', fl, Ok tt).
  Proof. intros F. destruct (file_typed r F) as [T _]. now apply typed_xml_is_write. Qed.
  Lemma to_xml_complete l r l' fl : file_read r -> convert_to_xml lib free l ft g m r = (l', fl, Ok tt) -> read_fully r.
  Proof.
    intros F. destruct (file_typed r F) as [T NS]. unfold convert_to_xml, input_read, read_fully. fold step.
    destruct (snd r) as [[]|e| |]; [reflexivity| | |].
    - destruct (parse_fails _ step (fst r) e (mkXO l None false) xml_never) as (h & H & _); auto; [congruence|].
      destruct (parse step (fst r) (Some e) (mkXO l None false)) as [st h']; cbn [snd] in H. subst h'. destruct h; discriminate.
    - pose proof (on_groups _ xml_never (fst r)) as G. unfold goes_on, andthen in *.
    match goal with |- context [read_groups ?a ?b ?d] => specialize (G d); destruct (read_groups a b d) as [st [[[]|]|]] end;
      cbn [snd] in G; first [discriminate|destruct (G eq_refl)].
    - pose proof (on_groups _ xml_never (fst r)) as G. unfold goes_on, andthen in *.
    match goal with |- context [read_groups ?a ?b ?d] => specialize (G d); destruct (read_groups a b d) as [st [[[]|]|]] end;
      cbn [snd] in G; first [discriminate|destruct (G eq_refl)].
  Qed.
End Xml.
