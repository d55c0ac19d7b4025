(** osmium_convert: what it reads, what it writes and what it leaves alone. *)
From Verif Require Import Base.Prelude Model.Osm Model.OsmFile Model.Handler Model.Pbf Model.Xml Model.Progress Model.Convert Model.ConvertMain
  Spec.HandlerSpec Spec.OsmFileSpec Spec.ConvertSpec Spec.ConvertMainSpec
  Proofs.HandlerProofs Proofs.ConvertNoStop Proofs.ConvertProofs Proofs.Convert2Proofs Proofs.OsmFileProofs.
From Verif Require Model.Ogr.
From Verif Require Spec.PbfSpec Spec.XmlSpec Spec.XmlText.
From Verif Require Proofs.PbfTheorems Proofs.XmlTheorems Proofs.XmlFileProofs Proofs.XmlReadProofs.

(* ---- names and formats ---- *)
Lemma disk_not_url name : disk_name name -> is_url name = false.
Proof.
  intros [D U]. apply Bool.not_true_iff_false. intros H. apply is_url_spec in H. destruct H as [H|[H|H]]; [tauto| |]; apply D; rewrite H; cbn; auto.
Qed.
Lemma convert_file_spec name format te : given_as name format te -> convert_file name format = file_of name te.
Proof.
  assert (NM : of_name (osmfile_new name) = (if String.eqb name "-" then ""%string else name) /\ of_fd (osmfile_new name) = -1 /\ of_child (osmfile_new name) = 0).
  { unfold osmfile_new. destruct (String.eqb_spec name ""%string) as [->|N]; [cbn; auto|]. cbn [orb].
    destruct (String.eqb name "-"); [cbn; auto|]. destruct (is_url name); [cbn; auto|]. destruct (set_type_and_encoding (name_suffix name)); cbn; auto. }
  destruct NM as (N1 & N2 & N3). unfold convert_file, file_of.
  assert (X : forall t e, (of_type (osmfile_new name), of_enc (osmfile_new name)) = (t, e) ->
    osmfile_new name = mkOF t e (if String.eqb name "-" then ""%string else name) (-1) 0).
  { intros t e H. injection H as <- <-. rewrite <- N1, <- N2, <- N3 at 1. destruct (osmfile_new name). reflexivity. }
  intros [te' F S|F S|F U|dir stem suffix te' F S D U M].
  - apply String.eqb_neq in F. rewrite F. apply suffix_means_fun in S. rewrite <- S. destruct te' as [t e]. rewrite N1, N2, N3. reflexivity.
  - rewrite F. cbn [fst snd]. apply X. destruct S as [->| ->]; reflexivity.
  - rewrite F. cbn [fst snd]. apply X. destruct (type_of_url name U) as [-> ->]. reflexivity.
  - rewrite F. change (String.eqb "" "") with true. cbv iota. destruct te' as [t e]. cbn [fst snd]. apply X. exact (type_from_suffix name dir stem suffix (t, e) S D U M).
Qed.
Lemma disk_file name te : disk_name name -> of_name (file_of name te) = name.
Proof. intros [D _]. cbn [file_of of_name]. destruct (String.eqb_spec name "-"); [|reflexivity]. exfalso. apply D. subst. cbn. auto. Qed.
Lemma disk_nonempty name : disk_name name -> String.eqb name "" = false.
Proof. intros [D _]. apply String.eqb_neq. intros ->. apply D. cbn. auto. Qed.

(* ---- bytes and texts ---- *)
Lemma text_bytes s : text_of (bytes_of s) = s.
Proof. apply string_of_list_ascii_of_string. Qed.

(* ---- the Meta object at init() ---- *)
Definition some_groups (st : xstate) : Prop := x_groups st <> [].
Lemma sg_snoc A (l : list A) x : l ++ [x] <> [].
Proof. destruct l; discriminate. Qed.
Lemma sg_try A st (r : outcome A) f : some_groups st -> (forall a, some_groups (fst (f a))) -> some_groups (fst (x_try st r f)).
Proof. intros H G. destruct r; cbn; auto. Qed.
Lemma sg_event e st : some_groups st -> some_groups (fst (x_event e st)).
Proof.
  intros H.
  assert (E : forall t, some_groups (x_emit (t, []) st)) by (intros t; apply sg_snoc).
  destruct e as [n a|n]; cbn [x_event].
  - unfold start_element. destruct (x_ctx st); try exact H.
    + destruct (is_root_name n); [|exact H]. apply sg_try; [exact H|]. intros m; exact H.
    + unfold start_top. cbv zeta.
      destruct (String.eqb n "node"); [apply sg_try; [|intros ?]; exact (E NODE)|].
      destruct (String.eqb n "way"); [apply sg_try; [|intros ?]; exact (E WAY)|].
      destruct (String.eqb n "relation"); [apply sg_try; [|intros ?]; exact (E RELATION)|].
      destruct (String.eqb n "bounds"); [apply sg_try; [|intros ?]; exact H|].
      destruct (String.eqb n "delete"); exact H.
    + unfold start_in_way. destruct (String.eqb n "nd"); [|exact H].
      destruct (x_cur (x_child st)); try exact H. apply sg_try; [exact H|intros ?; exact H].
    + unfold start_in_relation. destruct (String.eqb n "member"); [|exact H].
      destruct (x_cur (x_child st)); try exact H. apply sg_try; [exact H|]. intros [[t ref] role].
      destruct (add_member _ _ _ _) as [ms [x|]]; exact H.
  - unfold end_element. destruct (x_ctx st); try exact H; try (apply sg_snoc).
    destruct (is_root_name n); [exact H|]. destruct (String.eqb n "delete"); exact H.
Qed.
Lemma sg_events es : forall st, some_groups st -> some_groups (fst (x_events es st)).
Proof.
  induction es as [|e r IH]; intros st H; cbn [x_events]; [exact H|].
  pose proof (sg_event e st H) as G. destruct (x_event e st) as [st' [u|x| |]]; cbn [fst] in *; auto.
Qed.
Lemma seen_some st : seen st <> None <-> some_groups st.
Proof. unfold seen, some_groups. destruct (x_groups st); split; congruence. Qed.
Lemma seen_none st : seen st = None <-> x_groups st = [].
Proof. unfold seen. destruct (x_groups st); split; congruence. Qed.
Lemma events_meta_groups es : forall st, events_meta es st = None <-> x_groups (fst (x_events es st)) = [].
Proof.
  induction es as [|e r IH]; intros st; cbn [events_meta x_events].
  - rewrite <- seen_none. cbn [x_ok fst]. destruct (seen st); tauto.
  - destruct (seen st) as [m|] eqn:S.
    + split; [discriminate|]. intros H. exfalso. assert (G : some_groups st) by (apply seen_some; congruence).
      pose proof (sg_events (e :: r) st G) as X. apply X. exact H.
    + destruct (x_event e st) as [st' [u|x| |]]; cbn [fst]; first [apply IH|apply seen_none].
Qed.
Section Env.
  Context {L E : Type}.
  Variable v : environment L E.
  Lemma sg_loop bufs : forall e st, some_groups st -> some_groups (fst (parse_loop (ev_expat v) bufs e st)).
  Proof.
    assert (B : forall e b d st, some_groups st -> some_groups (fst (snd (parse_buffer (ev_expat v) e b d st)))).
    { intros e b d st H. unfold parse_buffer. destruct (ev_expat v e b d) as [[e' evs] ok]. pose proof (sg_events evs st H) as G.
      destruct (x_events evs st) as [st' [u|x| |]]; cbn [fst snd] in *; auto. }
    induction bufs as [|b r IH]; intros e st H; cbn [parse_loop]; [auto|].
    destruct b as [b|]; [|exact H]. destruct b as [|c s]; [auto|].
    specialize (B e (String c s) false st H).
    destruct (parse_buffer (ev_expat v) e (String c s) false st) as [e' [st' [u|x| |]]]; cbn [fst snd] in *; auto.
  Qed.
  Lemma loop_meta_groups bufs : forall e st, x_groups st = [] -> loop_meta v bufs e st = None <-> x_groups (fst (parse_loop (ev_expat v) bufs e st)) = [].
  Proof.
    assert (F : forall e st, (let '(_, evs, _) := ev_expat v e ""%string true in events_meta evs st) = None <->
      x_groups (fst (snd (parse_buffer (ev_expat v) e ""%string true st))) = []).
    { intros e st. unfold parse_buffer. destruct (ev_expat v e ""%string true) as [[e' evs] ok]. rewrite events_meta_groups.
      destruct (x_events evs st) as [st' [u|x| |]]; reflexivity. }
    induction bufs as [|b r IH]; intros e st H; cbn [loop_meta parse_loop]; [apply F|].
    destruct b as [b|]; [|cbn [fst]; tauto]. destruct b as [|c s]; [apply F|]. unfold parse_buffer.
    destruct (ev_expat v e (String c s) false) as [[e' evs] ok]. pose proof (events_meta_groups evs st) as G.
    destruct (events_meta evs st) as [m|].
    - split; [discriminate|]. intros X. exfalso. assert (S : some_groups (fst (x_events evs st))) by (intros Z; apply G in Z; discriminate).
      destruct (x_events evs st) as [st' [u|x| |]]; cbn [fst] in *; try (exact (S X)). destruct ok; [|exact (S X)]. exact (sg_loop r e' st' S X).
    - destruct (x_events evs st) as [st' [u|x| |]]; cbn [fst] in *; [|tauto..]. destruct ok; [|cbn [fst]; tauto]. apply IH. apply G. reflexivity.
  Qed.
  Lemma blobs_meta_groups ty fin bs : forall m, blobs_meta v ty bs m = None <-> pr_groups (parse_blobs (ev_codec v) ty bs fin m) = [].
  Proof.
    induction bs as [|[t d] r IH]; intros m; cbn [blobs_meta parse_blobs]; [cbn; tauto|].
    destruct (String.eqb t "OSMData").
    - destruct (par_pb (ev_codec v) d) as [b|]; [|cbn; tauto].
      destruct (parse_groups b (pb_groups b)) as [[|g gs] [[]|x| |]]; cbn [pr_groups app]; first [apply IH|split; congruence].
    - destruct (String.eqb t "OSMHeader"); [|apply IH]. destruct (par_hb (ev_codec v) d) as [h|]; [|cbn; tauto].
      destruct (parse_header ty h m); first [apply IH|cbn; tauto].
  Qed.
  Lemma init_groups f d : ld_init (read_bytes v f d) = None <-> fst (ld_reading (read_bytes v f d)) = [].
  Proof.
    assert (X : forall bufs, loop_meta v bufs (ev_e0 v) x_new = None <-> x_groups (fst (read_xml (ev_expat v) (ev_e0 v) bufs)) = [])
      by (intros bufs; apply loop_meta_groups; reflexivity).
    unfold read_bytes. destruct (of_enc f); cbn [ld_init ld_reading xml_reading pbf_reading fst]; try apply X.
    unfold read_pbf. destruct (read_blobs (ev_codec v) (mkIfd d (ev_rs v))) as [bs e]. cbn [fst]. apply blobs_meta_groups.
  Qed.
  Lemma read_bytes_file f d : file_read (ld_reading (read_bytes v f d)).
  Proof. unfold read_bytes. destruct (of_enc f); cbn [ld_reading]; first [apply fr_pbf|apply fr_xml]. Qed.

  (* ---- the progress display beside the output ---- *)
  Lemma progress_halts c p p' h : progress (ev_clock v) c p = (p', Some h) -> h = HUB.
  Proof.
    assert (U : forall b s s' h, update_display (ev_clock v) b s = (s', Some h) -> h = HUB).
    { intros b s s' h0. unfold update_display. destruct b; [|discriminate]. destruct (p_now (ev_clock v) _) as [now s2].
      destruct (speed_out now s2); intros H; inversion H; reflexivity. }
    assert (A : forall n c t f s s' h, p_average n c t f s = (s', Some h) -> h = HUB).
    { intros n c0 t f s s' h0. unfold p_average. destruct (c0 >? 0); [|discriminate]. destruct (per_second c0 t f); intros H; inversion H; reflexivity. }
    assert (B : forall x f s' h, (forall s h0, x = (s, Some h0) -> h0 = HUB) -> (forall s s' h0, f s = (s', Some h0) -> h0 = HUB) ->
      p_bind x f = (s', Some h) -> h = HUB).
    { intros [s [h1|]] f s' h0 X Y; cbn [p_bind]; [intros H; injection H as <- <-; exact (X s h1 eq_refl)|apply Y]. }
    destruct c; cbn [progress]; try discriminate.
    - unfold p_init. destruct (p_tty p); [apply U|discriminate].
    - unfold p_object. cbv zeta. match goal with |- context[p_tty ?s] => destruct (p_tty s); [|discriminate] end.
      match goal with |- context[is_step ?a ?b] => destruct (is_step a b) as [[]|x| |] end;
        first [apply U|discriminate|intros H; injection H as <- <-; reflexivity].
    - unfold p_final. destruct (p_tty p); [|discriminate]. apply B; [intros s h0; apply U|]. intros s1 s' h0.
      destruct (p_now (ev_clock v) _) as [now s2].
      apply B; [intros s h1; apply A|]. intros s3 s3' h3. apply B; [intros s h1; apply A|]. intros s4 s4' h4.
      apply B; [intros s h1; apply A|]. intros s5 s5' h5. discriminate.
  Qed.
  Section Both.
    Context {W : Type}.
    Variable out : callback -> W -> W * option halt.
    Hypothesis Q : quiet out.
    Hypothesis N : never_stops out.
    Lemma both_quiet : quiet (and_progress v out).
    Proof. destruct Q as [Q1 Q2]. split; intros t [s p]; unfold and_progress, sequence; cbn [fst snd]; rewrite ?Q1, ?Q2; reflexivity. Qed.
    Lemma both_never : never_stops (and_progress v out).
    Proof.
      intros c [s p] s'. unfold and_progress, sequence. cbn [fst snd]. specialize (N c s). destruct (out c s) as [a [h|]].
      - intros H. injection H as <- ->. exact (N a eq_refl).
      - cbn [fst snd]. pose proof (progress_halts c p) as P. destruct (progress (ev_clock v) c p) as [p' [h|]]; [|discriminate].
        specialize (P p' h eq_refl). subst h. discriminate.
    Qed.
    Lemma both_step c s p s' p' : and_progress v out c (s, p) = ((s', p'), None) -> out c s = (s', None).
    Proof.
      unfold and_progress, sequence. cbn [fst snd]. destruct (out c s) as [a [h|]]; [discriminate|]. cbn [fst snd].
      destruct (progress (ev_clock v) c p) as [q [h|]]; [discriminate|]. intros H. injection H as -> _. reflexivity.
    Qed.
    Lemma both_objs os : forall s p s' p', feed_objs (and_progress v out) os (s, p) = ((s', p'), None) -> feed_objs out os s = (s', None).
    Proof.
      induction os as [|o r IH]; intros s p s' p'; cbn [feed_objs]; [intros H; injection H as -> _; reflexivity|].
      destruct (and_progress v out (CObj o) (s, p)) as [[s1 p1] [h|]] eqn:S; [discriminate|]. apply both_step in S. rewrite S. apply IH.
    Qed.
    Lemma both_staged os s p s' p' : staged (and_progress v out) os (s, p) = ((s', p'), None) -> staged out os s = (s', None).
    Proof.
      unfold staged. destruct (and_progress v out CInit (s, p)) as [[s1 p1] [h|]] eqn:S1; [discriminate|]. apply both_step in S1. rewrite S1.
      destruct (feed_objs (and_progress v out) os (s1, p1)) as [[s2 p2] [h|]] eqn:S2; [discriminate|]. apply both_objs in S2. rewrite S2. apply both_step.
    Qed.
    Lemma parse_none_final {S} (step : callback -> S -> S * option halt) s :
      (r_handler (fst (parse step [] None s)), snd (parse step [] None s)) = step CFinal s.
    Proof. unfold parse. cbn. unfold call. cbn. destruct (step CFinal s) as [s' [h|]]; cbn; [|reflexivity]. destruct h as [[]|]; reflexivity. Qed.
    (** a run that ends normally has met the end of the input, and the output went through all of it *)
    Lemma both_run r s p s' b : file_read r -> input_read (and_progress v out) r (s, p) = (s', None, b) ->
      read_fully r /\ exists b', input_read out r s = (fst s', None, b').
    Proof.
      intros F. destruct (file_typed r F) as [T NS]. destruct r as [gs [[]|e| |]]; cbn [fst snd] in *.
      - intros H. split; [reflexivity|]. unfold input_read in *. cbn [fst snd] in *.
        destruct (parse (and_progress v out) gs None (s, p)) as [st h] eqn:P. injection H as <- -> _.
        assert (X : (r_handler (fst (parse out gs None s)), snd (parse out gs None s)) = (fst (r_handler st), None)).
        { destruct gs as [|g gs].
          - rewrite parse_none_final. pose proof (parse_none_final (and_progress v out) (s, p)) as Y. rewrite P in Y. cbn [fst snd] in Y.
            destruct (r_handler st) as [s1 p1]. symmetry in Y. apply both_step in Y. exact Y.
          - rewrite (parse_staged W out (g :: gs) s Q N ltac:(discriminate) T).
            pose proof (parse_staged _ (and_progress v out) (g :: gs) (s, p) both_quiet both_never ltac:(discriminate) T) as Y.
            rewrite P in Y. cbn [fst snd] in Y. destruct (r_handler st) as [s1 p1]. symmetry in Y. apply both_staged in Y. exact Y. }
        destruct (parse out gs None s) as [st2 h2]. cbn [fst snd] in X. injection X as X1 X2. subst. exists true. rewrite X1. reflexivity.
      - intros H. exfalso. unfold input_read in H. cbn [fst snd] in H.
        destruct (parse_fails _ (and_progress v out) gs e (s, p) both_never) as (h & X & _); auto; [congruence|].
        destruct (parse (and_progress v out) gs (Some e) (s, p)) as [st h']. cbn [snd] in X. subst. discriminate.
      - intros H. exfalso. unfold input_read in H. cbn [fst snd] in H.
        pose proof (on_groups _ both_never gs) as G. unfold goes_on, andthen in *.
        match goal with _ : context [read_groups ?a ?b ?d] |- _ => specialize (G d); destruct (read_groups a b d) as [st [[[]|]|]] end;
          cbn [snd] in G; first [discriminate|destruct (G eq_refl)].
      - intros H. exfalso. unfold input_read in H. cbn [fst snd] in H.
        pose proof (on_groups _ both_never gs) as G. unfold goes_on, andthen in *.
        match goal with _ : context [read_groups ?a ?b ?d] |- _ => specialize (G d); destruct (read_groups a b d) as [st [[[]|]|]] end;
          cbn [snd] in G; first [discriminate|destruct (G eq_refl)].
    Qed.
    (* without a terminal the display does nothing *)
    Lemma silent c p : p_tty p = false -> exists p', progress (ev_clock v) c p = (p', None) /\ p_tty p' = false /\ p_out p' = p_out p.
    Proof.
      intros T. destruct c; cbn [progress]; try (eexists; split; [reflexivity|split; [exact T|reflexivity]]).
      - unfold p_init. rewrite T. eauto.
      - unfold p_object. cbv zeta. destruct (tv_sec (p_first (obj_type o) p) =? 0); destruct (obj_type o); cbn; rewrite T; eexists; (split; [reflexivity|split; [cbn; first [reflexivity|exact T]|reflexivity]]).
      - unfold p_final. rewrite T. eauto.
    Qed.
    Lemma silent_step c s p : p_tty p = false -> exists p', and_progress v out c (s, p) = ((fst (out c s), p'), snd (out c s)) /\ p_tty p' = false /\ p_out p' = p_out p.
    Proof.
      intros T. unfold and_progress, sequence. cbn [fst snd]. destruct (out c s) as [a [h|]]; cbn [fst snd]; [exists p; auto|].
      destruct (silent c p T) as (p' & -> & T' & O). exists p'. auto.
    Qed.
    Lemma silent_objs os : forall s p, p_tty p = false ->
      exists p', feed_objs (and_progress v out) os (s, p) = ((fst (feed_objs out os s), p'), snd (feed_objs out os s)) /\ p_tty p' = false /\ p_out p' = p_out p.
    Proof.
      induction os as [|o r IH]; intros s p T; cbn [feed_objs]; [exists p; auto|].
      destruct (silent_step (CObj o) s p T) as (p1 & -> & T1 & O1). destruct (out (CObj o) s) as [s1 [h|]]; cbn [fst snd]; [exists p1; auto|].
      destruct (IH s1 p1 T1) as (p2 & -> & T2 & O2). exists p2. rewrite O2. auto.
    Qed.
    Lemma silent_staged os s p : p_tty p = false ->
      exists p', staged (and_progress v out) os (s, p) = ((fst (staged out os s), p'), snd (staged out os s)) /\ p_out p' = p_out p.
    Proof.
      intros T. unfold staged. destruct (silent_step CInit s p T) as (p1 & -> & T1 & O1). destruct (out CInit s) as [s1 [h|]]; cbn [fst snd]; [exists p1; auto|].
      destruct (silent_objs os s1 p1 T1) as (p2 & -> & T2 & O2). destruct (feed_objs out os s1) as [s2 [h|]]; cbn [fst snd]; [exists p2; split; [reflexivity|congruence]|].
      destruct (silent_step CFinal s2 p2 T2) as (p3 & -> & T3 & O3). exists p3. split; [reflexivity|congruence].
    Qed.
    Lemma both_same r s p s' h b : file_read r -> read_fully r -> p_tty p = false -> input_read out r s = (s', h, b) ->
      exists p', input_read (and_progress v out) r (s, p) = ((s', p'), h, b) /\ p_out p' = p_out p.
    Proof.
      intros F RF T I. destruct (file_typed r F) as [WT _]. destruct r as [gs e]. unfold read_fully in RF. cbn [fst snd] in *. subst e.
      unfold input_read in *. cbn [fst snd] in *.
      assert (X : exists p', (r_handler (fst (parse (and_progress v out) gs None (s, p))), snd (parse (and_progress v out) gs None (s, p))) =
        ((r_handler (fst (parse out gs None s)), p'), snd (parse out gs None s)) /\ p_out p' = p_out p).
      { destruct gs as [|g gs].
        - rewrite parse_none_final. destruct (silent_step CFinal s p T) as (p' & -> & _ & O). exists p'. split; [|exact O].
          pose proof (parse_none_final out s) as Y. rewrite <- Y. reflexivity.
        - rewrite (parse_staged _ (and_progress v out) (g :: gs) (s, p) both_quiet both_never ltac:(discriminate) WT).
          destruct (silent_staged (flat_map snd (g :: gs)) s p T) as (p' & -> & O). exists p'. split; [|exact O].
          rewrite <- (parse_staged W out (g :: gs) s Q N ltac:(discriminate) WT). reflexivity. }
      destruct X as (p' & X & O). exists p'. split; [|exact O].
      destruct (parse out gs None s) as [st h1]. destruct (parse (and_progress v out) gs None (s, p)) as [st2 h2]. cbn [fst snd] in X.
      apply pair_equal_spec in X. destruct X as [X1 X2]. subst h2. rewrite X1. injection I as <- <- <-. reflexivity.
    Qed.
  End Both.
End Env.
