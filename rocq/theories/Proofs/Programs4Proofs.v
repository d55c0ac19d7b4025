(** Dumping a file. *)
From Verif Require Import Base.Prelude Base.Decimal Model.Osm Model.OsmFile Model.Handler Model.Pbf Model.Xml Model.Convert Model.Float Model.Wkt Model.Debug
  Model.Programs Spec.OsmSpec Spec.HandlerSpec Spec.ConvertSpec Spec.DebugSpec Spec.ProgramsSpec Proofs.HandlerProofs Proofs.Handler2Proofs Proofs.Handler3Proofs
  Proofs.ConvertNoStop Proofs.ConvertProofs Proofs.ObjectsOnly Proofs.DebugProofs Proofs.Debug2Proofs Proofs.Programs2Proofs Proofs.Programs3Proofs.
Local Open Scope Z_scope.
Local Open Scope list_scope.

Lemma debug_shows m mv r : showable_meta m -> file_read r -> read_fully r -> fst r <> [] -> Forall showable (objects_of r) ->
  exists text rs, osmium_debug false m mv r = (text, None) /\ read_dump text = Some rs /\
    Forall2 (shows_call m mv) rs (protocol (fst r) ++ [CFinal]).
Proof.
  intros SM F RF N S. destruct (file_typed r F) as [W _]. destruct r as [gs e]. unfold read_fully in RF. cbn [fst snd] in *. subst e.
  destruct (dump_file m mv false false gs SM N W S) as (s & rs & E & R & H). exists (d_out s), rs.
  unfold osmium_debug. match goal with |- context [input_read ?a ?b ?c] => replace (input_read a b c) with (s, @None halt, true) by (symmetry; exact E) end. auto.
Qed.

Lemma ends_showable os : Forall showable os -> Forall showable (ends os).
Proof.
  induction os as [|o r IH]; intros H; cbn [ends]; [constructor|]. inversion H as [|? ? H1 H2]; subst. constructor; [|now apply IH].
  destruct r as [|o2 r]; auto. destruct (obj_id o2 =? obj_id o); auto. inversion H2 as [|? ? [H3 _] _]; subst.
  assert (T : showable_time (obj_timestamp o2)) by (destruct o2; apply H3).
  destruct o as [n|w|x]; destruct H1 as [[A B C D] E]; (split; [split; assumption|exact E]).
Qed.
Definition ended (r : otype * list object) : otype * list object := (fst r, ends (snd r)).
Lemma ended_bracket js : flat_map (fun r => bracket (fst r, ends (snd r))) js = flat_map bracket (map ended js).
Proof. induction js as [|g js IH]; cbn [flat_map map]; [reflexivity|]. now rewrite IH. Qed.

Lemma debug_ends_shows m mv r : showable_meta m -> file_read r -> read_fully r -> fst r <> [] -> Forall showable (objects_of r) ->
  exists text rs, osmium_debug true m mv r = (text, None) /\ read_dump text = Some rs /\
    Forall2 (shows_call m true) rs (CInit :: flat_map (fun g => bracket (fst g, ends (snd g))) (join (fst r)) ++ [CFinal]).
Proof.
  intros SM F RF N S. destruct (file_typed r F) as [W _]. destruct r as [gs e]. unfold read_fully in RF. cbn [fst snd] in *. subst e.
  pose proof (join_well_typed gs W) as WJ.
  set (js := map ended (join gs)).
  assert (TO : forall g, In g js -> object_type (fst g)).
  { intros g I. unfold js in I. apply in_map_iff in I as (g' & <- & I). apply (WJ g' I). }
  assert (SH : Forall showable (flat_map snd js)).
  { unfold js. unfold objects_of in S. cbn [fst] in S. rewrite <- (join_objects gs) in S. clear - S. induction (join gs) as [|g l IH]; cbn [flat_map map] in *; [constructor|].
    apply Forall_app in S as [S1 S2]. apply Forall_app. split; [now apply ends_showable|now apply IH]. }
  assert (NI : ~ In CInit (app (flat_map bracket js) [CFinal])).
  { intros X. apply in_app_or in X. destruct X as [X|[X|[]]]; [|discriminate X]. exact (proj1 (bracket_no_init _) X). }
  destruct (debug_init_calls m mv _ SM (bracket_showable js TO SH) NI (debug_new true false)) as (s & ls & TK & O & D).
  unfold js in TK. rewrite <- ended_bracket in TK.
  pose proof (endtime_correct _ (debug m mv) (join gs) _ _ WJ TK) as TK2.
  change (CInit :: flat_map bracket (join gs) ++ [CFinal]) with (protocol gs ++ [CFinal]) in TK2.
  destruct (takes_snoc _ _ _ _ _ _ TK2) as (s1 & T1 & FN).
  pose proof (no_throw _ _ gs _ s1 N W T1) as Q. rewrite FN in Q. cbn [fst snd] in Q.
  destruct D as [L _ (rs' & R & H)]. cbn [debug_new d_hist d_out String.append orb] in *.
  exists (d_out s), rs'. split; [|split].
  - unfold osmium_debug, input_read. cbn [snd fst]. unfold observe in Q.
    destruct (parse (stacked (debug m mv) endtime_prog) gs None (lasts_new, debug_new true false)) as [y h].
    cbn [fst snd] in Q. injection Q as Q1 Q2 Q3. rewrite Q2, Q3. reflexivity.
  - unfold read_dump. rewrite O, (lines_unlines ls L). apply R. apply le_n.
  - rewrite ended_bracket. exact H.
Qed.

Lemma removelast_cons_app {A} (x : A) l c : l <> [] -> removelast (x :: l) ++ [c] = x :: removelast l ++ [c].
Proof. intros N. destruct l; [congruence|]. reflexivity. Qed.
Lemma removelast_in {A} (l : list A) : forall x, In x (removelast l) -> In x l.
Proof. induction l as [|a [|b l] IH]; intros x I; [destruct I|destruct I|]. destruct I as [<-|I]; [now left|right; now apply IH]. Qed.
Lemma debug_failed m mv r e : showable_meta m -> file_read r -> snd r = Throw e -> fst r <> [] -> Forall showable (objects_of r) ->
  exists text rs, osmium_debug false m mv r = (text, Some (HExn e)) /\ read_dump text = Some rs /\
    Forall2 (shows_call m mv) rs (protocol_open (fst r)).
Proof.
  intros SM F RF N S. destruct (file_typed r F) as [W NS]. destruct r as [gs x]. cbn [fst snd] in *. subst x.
  pose proof (join_well_typed gs W) as WJ.
  assert (TO : forall g, In g (join gs) -> object_type (fst g)) by (intros g I; apply (WJ g I)).
  assert (SH : Forall showable (flat_map snd (join gs))) by (rewrite join_objects; exact S).
  assert (NE : flat_map bracket (join gs) <> []).
  { destruct gs as [|[t os] gs]; [congruence|]. cbn [join]. destruct (join gs) as [|[t' os'] js]; [discriminate|]. destruct (otype_eqb t t'); discriminate. }
  assert (P : protocol_open gs = CInit :: removelast (flat_map bracket (join gs))).
  { unfold protocol_open, protocol. destruct (flat_map bracket (join gs)); [congruence|reflexivity]. }
  assert (SC : Forall showable_call (removelast (flat_map bracket (join gs)))).
  { pose proof (bracket_showable (join gs) TO SH) as X. apply Forall_app in X as [X _]. rewrite Forall_forall in *. intros c I. apply X. now apply removelast_in. }
  assert (NI : ~ In CInit (removelast (flat_map bracket (join gs)))).
  { intros X. apply removelast_in in X. exact (proj1 (bracket_no_init _) X). }
  destruct (debug_init_calls m mv _ SM SC NI (debug_new false false)) as (s & ls & TK & O & D).
  rewrite <- P in TK, D.
  assert (Ne : e <> EStopReading) by (intros ->; now apply NS).
  pose proof (read_error _ (debug m mv) gs e _ _ N W Ne TK) as Q.
  destruct D as [L _ (rs' & R & H)]. cbn [debug_new d_hist d_out String.append orb] in *.
  exists (d_out s), rs'. split; [|split; [|exact H]].
  - unfold osmium_debug, input_read. cbn [snd fst]. unfold observe in Q.
    destruct (parse (debug m mv) gs (Some e) (debug_new false false)) as [y h].
    cbn [fst snd] in Q. injection Q as Q1 Q2 Q3. rewrite Q2, Q3. reflexivity.
  - unfold read_dump. rewrite O, (lines_unlines ls L). apply R. apply le_n.
Qed.

Lemma debug_ends_same m m' mv mv' r r' text : showable_meta m -> showable_meta m' -> file_read r -> file_read r' -> read_fully r -> read_fully r' ->
  fst r <> [] -> fst r' <> [] -> Forall showable (objects_of r) -> Forall showable (objects_of r') ->
  osmium_debug true m mv r = (text, None) -> osmium_debug true m' mv' r' = (text, None) ->
  Forall2 (same_call true) (CInit :: flat_map (fun g => bracket (fst g, ends (snd g))) (join (fst r)) ++ [CFinal])
                           (CInit :: flat_map (fun g => bracket (fst g, ends (snd g))) (join (fst r')) ++ [CFinal]).
Proof.
  intros SM SM' F F' RF RF' N N' S S' E E'.
  destruct (debug_ends_shows m mv r SM F RF N S) as (t & rs & T & R & H). rewrite T in E. injection E as ->.
  destruct (debug_ends_shows m' mv' r' SM' F' RF' N' S') as (t & rs' & T' & R' & H'). rewrite T' in E'. injection E' as ->.
  rewrite R in R'. injection R' as <-.
  revert H H'. generalize (CInit :: flat_map (fun g => bracket (fst g, ends (snd g))) (join (fst r)) ++ [CFinal]),
    (CInit :: flat_map (fun g => bracket (fst g, ends (snd g))) (join (fst r')) ++ [CFinal]). clear.
  induction rs as [|x rs IH]; intros l l' A B; inversion A; inversion B; subst; constructor; [eapply call_unique; eauto|apply IH; assumption].
Qed.
