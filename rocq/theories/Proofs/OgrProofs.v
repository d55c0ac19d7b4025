(** Proofs about the export with OGR. *)
From Verif Require Import Base.Prelude Base.Decimal Model.Osm Model.Float Model.Geom Model.Area Model.Tags Model.Handler Model.Convert Model.Ogr
  Spec.OsmSpec Spec.TimeSpec Spec.TagsSpec Spec.HandlerSpec Spec.ToshapeSpec Spec.OgrSpec
  Proofs.OsmProofs Proofs.TagsProofs Proofs.DecfloatProofs Proofs.HandlerProofs Proofs.Handler2Proofs Proofs.ObjectsOnly Proofs.AreaProofs Proofs.ToshapeProofs Proofs.Toshape2Proofs.
Local Open Scope Z_scope.

Lemma text_field_get ts k : text_field ts k (get_value_by_key ts k).
Proof.
  split.
  - intros v T. apply tagged_get in T. exact T.
  - intros N. apply untagged_get in N. exact N.
Qed.
Lemma ogr_line_points ns : ogr_line (linestring_new ns false) = OgrLine (map (fun n => lonlat (wn_pos n)) ns).
Proof. unfold ogr_line, collect, linestring_new. cbn [fw_reverse fw_nodes]. rewrite push_all_spec. unfold positions. rewrite map_map. reflexivity. Qed.

(* ---- toogr ---- *)
Lemma stream_points dflt os : forall seen rs, exported post_box post_box_feature (located_stream seen os dflt) rs -> exported post_box post_box_feature os rs.
Proof.
  induction os as [|o os IH]; intros seen rs E; inversion E; subst; [constructor| |].
  - assert (Q : locate seen dflt o = o). { destruct o as [n|w|q]; try reflexivity. destruct H1 as (n & X & _). discriminate X. } rewrite Q in *.
    constructor; try assumption. eapply IH; eassumption.
  - constructor; [|eapply IH; eassumption]. intros B. destruct H1. destruct o; try exact B. destruct B as (n & X & _). discriminate X.
Qed.
Section Toogr.
  Context {P N : Type}.
  Variable pset : Z -> position -> P -> outcome P.
  Variable pget : Z -> P -> outcome position.
  Variable nset : Z -> position -> N -> outcome N.
  Variable nget : Z -> N -> outcome position.
  Variable lib : nat -> bool.
  Let h := toogr pset pget nset nget lib.

  (** one located object *)
  Definition ogr_one (o : object) (s : ostate P N) : ostate P N * option halt :=
    match o with ONode n => ogr_node lib n s | OWay w => ogr_way lib w s | ORel _ => (s, None) end.
  Lemma ogr_one_spec o s s' x : ogr_one o s = (s', x) -> og_stores s' = og_stores s /\
    ((x = None /\ exists a b, og_points s' = og_points s ++ a /\ og_lines s' = og_lines s ++ b /\ exported post_box post_box_feature [o] a /\ exported highway highway_feature [o] b /\
        og_calls s' = (og_calls s + List.length (a ++ b))%nat /\ (forall k, (og_calls s <= k < og_calls s')%nat -> lib k = true)) \/
     (x = Some (HExn EExit) /\ og_points s' = og_points s /\ og_lines s' = og_lines s /\ (post_box o \/ highway o) /\ lib (og_calls s) = false)).
  Proof.
    assert (Skip : forall o s, ~ post_box o -> ~ highway o -> exists a b, og_points s = og_points s ++ a /\ og_lines s = og_lines s ++ b /\
      exported post_box post_box_feature [o] a /\ exported highway highway_feature [o] b /\
      og_calls (P := P) (N := N) s = (og_calls s + List.length (a ++ b))%nat /\ (forall k, (og_calls s <= k < og_calls s)%nat -> lib k = true)).
    { intros q u A B. exists [], []. rewrite !app_nil_r. split; [reflexivity|]. split; [reflexivity|]. split; [apply exported_none; exact A|]. split; [apply exported_none; exact B|].
      split; [cbn; lia|]. intros; lia. }
    intros E. destruct o as [n|w|r]; cbn [ogr_one] in E.
    - unfold ogr_node in E. assert (Nh : ~ highway (ONode n)) by (intros (w & v & X & _); discriminate X).
      destruct (get_value_by_key (o_tags (n_attrs n)) "amenity") as [v|] eqn:G; [destruct (String.eqb_spec v "post_box") as [->|V]|].
      2,3: injection E as <- <-; split; [reflexivity|]; left; split; [reflexivity|]; apply Skip; [|exact Nh]; intros (m & X & T); injection X as <-; apply tagged_get in T; congruence.
      assert (B : post_box (ONode n)) by (exists n; split; [reflexivity|]; apply tagged_get; exact G).
      cbv zeta in E. destruct (lib (og_calls s)) eqn:L; injection E as <- <-; (split; [reflexivity|]).
      + left. split; [reflexivity|]. eexists _, []. cbn [og_points og_lines og_calls]. rewrite (app_nil_r (og_lines s)). split; [reflexivity|]. split; [reflexivity|].
        split; [apply exported_one; [exact B|]; split; [reflexivity|]; split; [reflexivity|apply text_field_get]|].
        split; [apply exported_none; exact Nh|]. split; [cbn; lia|]. intros k K. replace k with (og_calls s) by lia. exact L.
      + right. auto 9.
    - unfold ogr_way in E. assert (Nb : ~ post_box (OWay w)) by (intros (m & X & _); discriminate X).
      destruct (get_value_by_key (o_tags (w_attrs w)) "highway") as [v|] eqn:G.
      2: injection E as <- <-; split; [reflexivity|]; left; split; [reflexivity|]; apply Skip; [exact Nb|]; intros (m & v & X & T); injection X as <-; apply tagged_get in T; congruence.
      assert (B : highway (OWay w)) by (exists w, v; split; [reflexivity|]; apply tagged_get; exact G).
      cbv zeta in E. destruct (lib (og_calls s)) eqn:L; injection E as <- <-; (split; [reflexivity|]).
      + left. split; [reflexivity|]. eexists [], _. cbn [og_points og_lines og_calls]. rewrite (app_nil_r (og_points s)). split; [reflexivity|]. split; [reflexivity|].
        split; [apply exported_none; exact Nb|].
        split; [apply exported_one; [exact B|]; split; [apply ogr_line_points|]; split; [reflexivity|]; rewrite <- G; apply text_field_get|].
        split; [cbn; lia|]. intros k K. replace k with (og_calls s) by lia. exact L.
      + right. auto 9.
    - injection E as <- <-. split; [reflexivity|]. left. split; [reflexivity|]. apply Skip; [intros (m & X & _); discriminate X|intros (m & v & X & _); discriminate X].
  Qed.

  Lemma toogr_run os : forall s s' x os' st', cfw_run pset pget nset nget os (og_stores s) = Ok (os', st') -> run_objects h os s = (s', x) ->
    exists l1 l2 a b, os' = l1 ++ l2 /\ og_points s' = og_points s ++ a /\ og_lines s' = og_lines s ++ b /\
      exported post_box post_box_feature l1 a /\ exported highway highway_feature l1 b /\
      (forall k, (og_calls s <= k < og_calls s + List.length (a ++ b))%nat -> lib k = true) /\
      ((x = None /\ l2 = []) \/
       (x = Some (HExn EExit) /\ lib (og_calls s + List.length (a ++ b))%nat = false /\ exists o l3, l2 = o :: l3 /\ (post_box o \/ highway o))).
  Proof.
    induction os as [|o os IH]; intros s s' x os' st' C E.
    - cbn in C, E. injection C as <- <-. injection E as <- <-. exists [], [], [], []. rewrite !app_nil_r. split; [reflexivity|]. split; [reflexivity|]. split; [reflexivity|].
      split; [constructor|]. split; [constructor|]. split; [cbn; intros; lia|]. left. auto.
    - cbn [cfw_run] in C. cbn [run_objects] in E. unfold h at 1 in E. cbn [toogr] in E.
      destruct (cfw_step pset pget nset nget o (og_stores s)) as [[o1 st1]|e| |]; try discriminate C. cbn [obind fst snd] in C.
      destruct (cfw_run pset pget nset nget os st1) as [[r1 st2]|e| |] eqn:C1; try discriminate C. cbn [obind fst snd] in C. injection C as <- <-.
      cbv zeta in E. set (s1 := mkO st1 (og_points s) (og_lines s) (og_calls s)) in E. fold (ogr_one o1 s1) in E.
      destruct (ogr_one o1 s1) as [s2 y] eqn:O1. destruct (ogr_one_spec o1 s1 s2 y O1) as [S2 [(-> & a & b & A & B & EA & EB & K & L)|(-> & A & B & Q & L)]].
      + destruct (IH s2 s' x r1 st2) as (l1 & l2 & a' & b' & El & A' & B' & EA' & EB' & L' & R); [rewrite S2; exact C1|exact E|].
        unfold s1 in A, B, K, L. cbn [og_points og_lines og_calls] in A, B, K, L.
        exists (o1 :: l1), l2, (a ++ a'), (b ++ b'). cbn [app]. rewrite El, A', B', A, B, <- !app_assoc. split; [reflexivity|]. split; [reflexivity|]. split; [reflexivity|].
        split; [exact (exported_app _ _ [o1] _ _ _ EA EA')|]. split; [exact (exported_app _ _ [o1] _ _ _ EB EB')|].
        rewrite K in L, L', R. rewrite !app_length in *.
        split; [intros k Hk; destruct (Nat.lt_ge_cases k (og_calls s + (List.length a + List.length b))); [apply L; lia|apply L'; lia]|].
        destruct R as [R|(R1 & R2 & R3)]; [left; exact R|right]. split; [exact R1|]. split; [|exact R3]. rewrite <- R2. f_equal. rewrite ?app_length. lia.
      + injection E as <- <-. exists [], (o1 :: r1), [], []. rewrite !app_nil_r. split; [reflexivity|]. split; [exact A|]. split; [exact B|].
        split; [constructor|]. split; [constructor|]. split; [cbn; intros; lia|]. right. split; [reflexivity|]. split; [cbn [List.length app]; rewrite Nat.add_0_r; exact L|]. eauto.
  Qed.
  Lemma toogr_acts c (s : ostate P N) : (forall o, c <> CObj o) -> h c s = (s, None).
  Proof. intros H. destruct c as [|t|o|t|a|]; try reflexivity. destruct (H o eq_refl). Qed.

  Variables (p0 : P) (n0 : N) (dflt : position) (domp domn : Z -> Prop).
  Hypothesis Sp : store_works pset pget p0 dflt domp.
  Hypothesis Sn : store_works nset nget n0 dflt domn.
  Variable gs : list (otype * list object).
  Hypothesis Ids : forall o id, In o (flat_map snd gs) -> In id (used_ids o) -> id_ok domp domn id.
  Lemma toogr_program s r b : input_read h (gs, Ok tt) (toogr_new p0 n0) = (s, r, b) ->
    exists l1 l2, flat_map snd gs = l1 ++ l2 /\
      exported post_box post_box_feature l1 (og_points s) /\ exported highway highway_feature (located_stream [] l1 dflt) (og_lines s) /\
      (forall k, (k < List.length (og_points s) + List.length (og_lines s))%nat -> lib k = true) /\
      ((r = None /\ b = true /\ l2 = []) \/
       (r = Some (HExn EExit) /\ lib (List.length (og_points s) + List.length (og_lines s))%nat = false /\ exists o l3, l2 = o :: l3 /\ (post_box o \/ highway o))).
  Proof.
    intros E. destruct (cfw_correct pset pget nset nget p0 n0 dflt domp domn Sp Sn _ Ids) as [st C].
    rewrite (objects_read _ toogr_acts) in E. set (os := flat_map snd gs) in *. destruct (run_objects h os (toogr_new p0 n0)) as [s1 x] eqn:R.
    destruct (toogr_run _ (toogr_new p0 n0) s1 x _ _ C R) as (m1 & m2 & a & b' & El & A & B & EA & EB & L & Q). cbn [toogr_new og_points og_lines og_calls app plus] in *.
    rewrite app_length in *.
    assert (s1 = s /\ r = x) as [-> ->].
    { destruct Q as [[-> _]|[-> _]]; cbn [ended EExit] in E; injection E as -> <- _; auto. }
    set (l1 := firstn (List.length m1) os). set (l2 := skipn (List.length m1) os). assert (Eo : os = l1 ++ l2) by (symmetry; apply firstn_skipn).
    assert (Len : List.length m1 = List.length l1).
    { unfold l1. rewrite firstn_length. pose proof (located_length dflt os []) as X. rewrite El, app_length in X. lia. }
    clearbody l1 l2. assert (m1 = located_stream [] l1 dflt /\ m2 = located_stream l1 l2 dflt) as [-> E2].
    { rewrite Eo, located_app in El. symmetry in El. apply app_same_length in El; [exact El|]. rewrite located_length. exact Len. }
    exists l1, l2. rewrite A, B. split; [exact Eo|]. split; [eapply stream_points; exact EA|]. split; [exact EB|]. split; [intros k Hk; apply L; lia|].
    destruct Q as [[-> ->]|(-> & Q & o & l3 & -> & T)]; [left|right].
    - cbn [ended] in E. injection E as <-. destruct l2; [auto|discriminate E2].
    - split; [reflexivity|]. split; [exact Q|]. destruct l2 as [|q l4]; [discriminate E2|]. cbn [located_stream] in E2. injection E2 as -> _. exists q, l4. split; [reflexivity|].
      destruct q as [n|w|q]; try exact T. right. destruct T as [(n & X & _)|(w' & v & X & T)]; [discriminate X|]. exists w, v. split; [reflexivity|]. injection X as <-. exact T.
  Qed.
End Toogr.

(* ---- postgis ---- *)
Lemma kept_filter t : kf_apply pg_filter t = true <-> kept_tag t.
Proof.
  unfold kf_apply, pg_filter, kf_add, key_filter_new, kept_tag. cbn [kf_rules kf_default app kf_scan kf_key kf_result].
  destruct (String.eqb_spec (tkey t) "created_by") as [E|E]; [split; [discriminate|intros [X _]; contradiction]|].
  destruct (String.eqb_spec (tkey t) "odbl") as [F|F]; [split; [discriminate|intros [_ X]; contradiction]|]. tauto.
Qed.
Lemma kept_pairs ts : kept_of ts (map pair_of (filter (kf_apply pg_filter) ts)).
Proof.
  induction ts as [|t ts IH]; [constructor|]. cbn [filter]. destruct (kf_apply pg_filter t) eqn:E; [apply kept_filter in E; constructor; assumption|].
  apply kept_skip; [|exact IH]. rewrite <- kept_filter. congruence.
Qed.
Lemma no_nul_cut s : no_nul s -> c_str s = s.
Proof. induction s as [|c s IH]; [reflexivity|]. cbn. intros [A B]. destruct (Ascii.eqb_spec c zero) as [E|_]; [contradiction|]. rewrite IH by exact B. reflexivity. Qed.
Lemma no_nul_app a b : no_nul a -> no_nul b -> no_nul (a ++ b)%string.
Proof. induction a as [|c a IH]; cbn; [auto|]. intros [A B] C. split; [exact A|]. apply IH; assumption. Qed.
Lemma no_nul_escaped e s : no_nul s -> no_nul (escaped e s).
Proof.
  induction s as [|c s IH]; cbn; [auto|]. intros [A B]. destruct (has_char c e); cbn; [split; [discriminate|]|]; (split; [exact A|apply IH; exact B]).
Qed.
Lemma hstore_no_nul l acc : no_nul acc -> no_nul (fold_left (tts_op tts_hstore) l acc).
Proof.
  assert (Ct : forall s, no_nul (c_str s)) by (intros s; rewrite c_str_cut; apply cut_nul_ok).
  revert acc. induction l as [|t l IH]; intros acc H; [exact H|]. cbn [fold_left]. apply IH. unfold tts_op.
  assert (D : forall s, no_nul s -> no_nul (String "034" s)) by (intros s; cbn; split; [discriminate|assumption]).
  repeat apply no_nul_app; try assumption; try (apply no_nul_escaped; apply Ct); try (cbn; intuition discriminate).
  destruct (String.eqb acc ""); cbn; intuition discriminate.
Qed.
Lemma print_integer n : integer (print_Z n) n.
Proof.
  unfold print_Z. destruct (Z.ltb_spec n 0) as [L|L]; [right|left].
  - split; [exact L|]. eexists. split; [reflexivity|]. apply print_number. lia.
  - split; [exact L|]. apply print_number. exact L.
Qed.
Lemma hstore_empty l : fold_left (tts_op tts_hstore) l ""%string = ""%string <-> l = [].
Proof.
  split; [|intros ->; reflexivity]. destruct l as [|t l]; [reflexivity|]. cbn [fold_left]. intros E. exfalso.
  assert (Ne : forall s, tts_op tts_hstore s t <> ""%string).
  { intros s. unfold tts_op. destruct s; cbn; discriminate. }
  assert (G : forall l acc, acc <> ""%string -> fold_left (tts_op tts_hstore) l acc <> ""%string).
  { clear. induction l as [|t l IH]; intros acc H; [exact H|]. cbn [fold_left]. apply IH. unfold tts_op. destruct acc; [contradiction|]. cbn. discriminate. }
  exact (G _ _ (Ne _) E).
Qed.

Section Postgis.
  Variable lib : nat -> bool.
  Lemma pg_node_spec n s s' x : Forall c_tag (o_tags (n_attrs n)) -> pg_node lib n s = (s', x) ->
    pg_open s' = pg_open s /\ pg_table s' = pg_table s /\
    ((x = None /\ exists a, pg_pending s' = pg_pending s ++ a /\ exported tagged_node node_feature [ONode n] a) \/
     (x = Some (HExn EExit) /\ exists k, lib k = false)).
  Proof.
    intros Ct E. unfold pg_node in E. cbv zeta in E.
    assert (Skip : filter (kf_apply pg_filter) (o_tags (n_attrs n)) = [] -> exported tagged_node node_feature [ONode n] []).
    { intros F. apply exported_none. intros (m & t & X & I & K). injection X as <-. apply kept_filter in K.
      assert (I' : In t (filter (kf_apply pg_filter) (o_tags (n_attrs n)))) by (apply filter_In; auto). rewrite F in I'. exact I'. }
    rewrite filter_and_accumulate_spec in E.
    assert (E1 : (if String.eqb (fold_left (tts_op tts_hstore) (filter (kf_apply pg_filter) (o_tags (n_attrs n))) ""%string) "" then (s, None)
      else let f := mkFeature (ogr_point (n_pos n)) (print_Z (o_id (n_attrs n))) (Some (c_str (fold_left (tts_op tts_hstore) (filter (kf_apply pg_filter) (o_tags (n_attrs n))) ""%string))) in
       if lib (pg_calls s) then (mkPg (pg_open s) (pg_pending s ++ [f]) (pg_table s) (S (pg_calls s)), None)
       else (mkPg (pg_open s) (pg_pending s) (pg_table s) (S (pg_calls s)), Some (HExn EExit))) = (s', x)).
    { destruct (o_tags (n_attrs n)); exact E. }
    clear E. rename E1 into E. destruct (String.eqb_spec (fold_left (tts_op tts_hstore) (filter (kf_apply pg_filter) (o_tags (n_attrs n))) ""%string) "") as [Z0|Z0].
    - injection E as <- <-. split; [reflexivity|]. split; [reflexivity|]. left. split; [reflexivity|]. exists []. rewrite app_nil_r. split; [reflexivity|]. apply Skip. apply hstore_empty. exact Z0.
    - cbv zeta in E. destruct (lib (pg_calls s)) eqn:L; injection E as <- <-; (split; [reflexivity|]); (split; [reflexivity|]); [left|right; eauto].
      split; [reflexivity|]. eexists. split; [reflexivity|].
      assert (Hd : exists t, In t (o_tags (n_attrs n)) /\ kept_tag t).
      { destruct (filter (kf_apply pg_filter) (o_tags (n_attrs n))) as [|t l] eqn:F; [destruct (Z0 eq_refl)|]. exists t.
        assert (I : In t (filter (kf_apply pg_filter) (o_tags (n_attrs n)))) by (rewrite F; left; reflexivity). apply filter_In in I as [I K]. split; [exact I|apply kept_filter; exact K]. }
      destruct Hd as (t & I & K). apply exported_one; [exists n, t; auto|]. split; [reflexivity|]. split; [apply print_integer|].
      rewrite no_nul_cut by (apply hstore_no_nul; exact Logic.I). eexists _, _. split; [reflexivity|]. split; [apply kept_pairs|].
      apply hstore_roundtrip. apply Forall_forall. intros u Hu. apply filter_In in Hu as [Hu _]. rewrite Forall_forall in Ct. auto.
  Qed.

  Definition objects_in (tr : list callback) : list object := flat_map (fun c => match c with CObj o => [o] | _ => [] end) tr.
  Lemma objects_app a b : objects_in (a ++ b) = objects_in a ++ objects_in b.
  Proof. apply flat_map_app. Qed.
  (** without a failure so far *)
  Definition fine (tr : list callback) (s : pgstate) : Prop :=
    (pg_open s = true /\ ~ In (CAfter NODE) tr /\ pg_table s = [] /\ exported tagged_node node_feature (objects_in tr) (pg_pending s)) \/
    (pg_open s = false /\ exists p q a b, tr = p ++ CAfter NODE :: q /\ ~ In (CAfter NODE) p /\
       exported tagged_node node_feature (objects_in p) a /\ pg_table s = a ++ b /\ exported tagged_node node_feature (objects_in q) (b ++ pg_pending s) /\
       (~ In (CAfter NODE) q -> b = [])).
  Definition ended_ok (tr : list callback) (s : pgstate) : Prop :=
    pg_table s = [] \/
    exists p q a b, tr = p ++ CAfter NODE :: q /\ ~ In (CAfter NODE) p /\ exported tagged_node node_feature (objects_in p) a /\ pg_table s = a ++ b /\
      (~ In (CAfter NODE) q -> b = []).
  Lemma fine_ended tr s : fine tr s -> ended_ok tr s.
  Proof. intros [(_ & _ & T & _)|(_ & p & q & a & b & E & N & X & T & _ & B)]; [left; exact T|right]. exists p, q, a, b. auto. Qed.

  Definition clean_call (c : callback) : Prop := match c with CObj o => clean_tags o | _ => True end.
  Lemma quiet_call_exported c : (forall n, c <> CObj (ONode n)) -> exported tagged_node node_feature (objects_in [c]) [].
  Proof.
    intros H. destruct c as [|t|o|t|a|]; try exact (exp_nil _ _). destruct o as [n|w|r]; [destruct (H n eq_refl)| |];
      cbn; apply exported_none; intros (n & t & X & _); discriminate X.
  Qed.
  Lemma fine_step tr s c s' x : fine tr s -> clean_call c -> postgis lib c s = (s', x) ->
    (x = None /\ fine (tr ++ [c]) s') \/ (x = Some (HExn EExit) /\ (exists k, lib k = false) /\ ended_ok (tr ++ [c]) s').
  Proof.
    intros F Cl E.
    assert (Grow : forall a, c <> CAfter NODE -> exported tagged_node node_feature (objects_in [c]) a -> pg_open s' = pg_open s -> pg_table s' = pg_table s -> pg_pending s' = pg_pending s ++ a -> fine (tr ++ [c]) s').
    { intros a Nc Ex O T Pn. destruct F as [(O1 & N & T1 & X)|(O1 & p & q & a0 & b & E1 & N & X & T1 & X2 & B)].
      - left. rewrite O, T, Pn. split; [exact O1|]. split; [intros I; apply in_app_iff in I as [I|[I|[]]]; [contradiction|contradiction]|]. split; [exact T1|].
        rewrite objects_app. apply exported_app; assumption.
      - right. rewrite O. split; [exact O1|]. exists p, (q ++ [c]), a0, b. rewrite T, Pn. split; [rewrite E1, <- app_assoc; reflexivity|]. split; [exact N|]. split; [exact X|]. split; [exact T1|].
        split; [rewrite objects_app, app_assoc; apply exported_app; assumption|]. intros Nq. apply B. intros I. apply Nq. apply in_app_iff. left. exact I. }
    assert (Quiet : (forall n, c <> CObj (ONode n)) -> c <> CAfter NODE -> (s, None) = (s', x) -> x = None /\ fine (tr ++ [c]) s').
    { intros H Nc Q. injection Q as <- <-. split; [reflexivity|]. apply (Grow []); auto; [apply quiet_call_exported; exact H|rewrite app_nil_r; reflexivity]. }
    destruct c as [|t|o|t|a|]; try (left; apply Quiet; [discriminate|discriminate|exact E]).
    - destruct o as [n|w|r]; try (left; apply Quiet; [discriminate|discriminate|exact E]).
      cbn [postgis] in E. destruct (pg_node_spec n s s' x Cl E) as (O & T & [(-> & a & Pn & Ex)|(-> & K)]); [left|right].
      + split; [reflexivity|]. apply (Grow a); auto. discriminate.
      + split; [reflexivity|]. split; [exact K|]. destruct (fine_ended _ _ F) as [T1|(p & q & a0 & b & E1 & N & X & T1 & B)]; [left; congruence|right].
        exists p, (q ++ [CObj (ONode n)]), a0, b. split; [rewrite E1, <- app_assoc; reflexivity|]. split; [exact N|]. split; [exact X|]. split; [congruence|].
        intros Nq. apply B. intros I. apply Nq. apply in_app_iff. left. exact I.
    - destruct t; try (left; apply Quiet; [discriminate|discriminate|exact E]). cbn [postgis] in E. injection E as <- <-. left. split; [reflexivity|].
      right. cbn [pg_open pg_table pg_pending]. split; [reflexivity|]. destruct F as [(O1 & N & T1 & X)|(O1 & p & q & a0 & b & E1 & N & X & T1 & X2 & B)].
      + exists tr, [], (pg_pending s), []. rewrite T1, app_nil_r. split; [reflexivity|]. split; [exact N|]. split; [exact X|]. split; [reflexivity|]. split; [constructor|]. auto.
      + exists p, (q ++ [CAfter NODE]), a0, (b ++ pg_pending s). split; [rewrite E1, <- app_assoc; reflexivity|]. split; [exact N|]. split; [exact X|]. split; [rewrite T1, <- app_assoc; reflexivity|].
        split; [rewrite app_nil_r, objects_app; cbn [objects_in flat_map]; rewrite !app_nil_r; exact X2|].
        intros Nq. destruct Nq. apply in_app_iff. right. left. reflexivity.
  Qed.

  (* ---- the whole program ---- *)
  Definition good (x : rstate pgstate * option halt) : Prop :=
    match snd x with
    | None => fine (r_trace (fst x)) (r_handler (fst x))
    | Some e => e <> HExn EStopReading /\ ended_ok (r_trace (fst x)) (r_handler (fst x))
    end.
  Lemma good_call c st : fine (r_trace st) (r_handler st) -> clean_call c -> good (call (postgis lib) c st).
  Proof.
    intros F Cl. unfold call. destruct (postgis lib c (r_handler st)) as [s' x] eqn:E. unfold good. cbn [snd fst r_trace r_handler].
    destruct (fine_step _ _ _ _ _ F Cl E) as [[-> G]|(-> & _ & G)]; [exact G|split; [discriminate|exact G]].
  Qed.
  Lemma good_then x f : good x -> (forall st, fine (r_trace st) (r_handler st) -> good (f st)) -> good (andthen x f).
  Proof. destruct x as [st [e|]]; intros G H; [exact G|]. apply H. exact G. Qed.
  Lemma good_none st : fine (r_trace st) (r_handler st) -> good (st, None).
  Proof. intros H. exact H. Qed.
  Lemma good_switch t st : fine (r_trace st) (r_handler st) -> good (call_after_and_before (postgis lib) t st).
  Proof.
    intros F. unfold call_after_and_before. destruct (negb _); [|exact F].
    apply good_then; [unfold call_after; destruct (r_last st); try exact F; apply good_call; try exact F; exact I|]. intros st1 F1.
    apply good_then; [unfold call_before; destruct t; try exact F1; apply good_call; try exact F1; exact I|]. intros st2 F2. exact F2.
  Qed.
  Lemma good_objects os : Forall clean_tags os -> forall st, fine (r_trace st) (r_handler st) -> good (call_objects (postgis lib) os st).
  Proof.
    induction 1 as [|o os C _ IH]; intros st F; [exact F|]. cbn [call_objects]. apply good_then; [apply good_call; [exact F|exact C]|exact IH].
  Qed.
  Lemma good_groups gs : Forall clean_tags (flat_map snd gs) -> forall st, fine (r_trace st) (r_handler st) -> good (read_groups (postgis lib) gs st).
  Proof.
    induction gs as [|[t os] gs IH]; intros C st F; [exact F|]. cbn [flat_map snd] in C. apply Forall_app in C as [C1 C2]. cbn [read_groups].
    apply good_then; [apply good_switch; exact F|]. intros st1 F1. apply good_then; [apply good_objects; assumption|]. intros st2 F2. apply IH; assumption.
  Qed.
  Lemma fine_new : fine [] pg_new.
  Proof. left. split; [reflexivity|]. split; [intros []|]. split; [reflexivity|constructor]. Qed.
End Postgis.
