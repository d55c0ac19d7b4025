(** Applying a change file, counting objects, and finding the bounding box. *)
From Verif Require Import Base.Prelude Base.Decimal Model.Osm Model.OsmFile Model.Handler Model.Pbf Model.Xml Model.Convert Model.Float Model.Wkt Model.Debug
  Model.Programs Spec.OsmSpec Spec.HandlerSpec Spec.ConvertSpec Spec.DebugSpec Spec.ProgramsSpec Proofs.HandlerProofs Proofs.Handler2Proofs Proofs.Handler3Proofs
  Proofs.ConvertNoStop Proofs.ConvertProofs Proofs.ObjectsOnly Proofs.DebugProofs Proofs.Debug2Proofs Proofs.Programs2Proofs.
Local Open Scope Z_scope.
Local Open Scope list_scope.

(* ---- osmium_store_and_debug ---- *)
Lemma store_run os : forall s, run_objects store_handler os s =
  match ostore_add_all os s with
  | Ok s' => (s', None)
  | Throw e => (fst (run_objects store_handler os s), Some (HExn e))
  | UB | AssertFail => (fst (run_objects store_handler os s), Some HUB)
  end.
Proof.
  induction os as [|o r IH]; intros s; [reflexivity|]. cbn [run_objects ostore_add_all store_handler].
  destruct (ostore_add o s) as [s1|e| |]; cbn [obind halting fst]; try reflexivity. apply IH.
Qed.
Lemma store_read r st : read_fully r -> ostore_add_all (objects_of r) ostore_new = Ok st ->
  input_read store_handler r ostore_new = (st, None, true).
Proof.
  intros R E. destruct r as [gs e]. unfold read_fully in R. cbn [snd] in R. subst e.
  rewrite (objects_read store_handler); [|intros [] s N; try reflexivity; now destruct (N o)].
  unfold objects_of in E. cbn [fst] in E. rewrite store_run, E. reflexivity.
Qed.
Lemma keys_incl a b : incl a b -> keys_ok b -> keys_ok a.
Proof.
  intros I [A B]. split.
  - intros x y X Y. apply A; rewrite in_map_iff in *; [destruct X as (o & <- & X)|destruct Y as (o & <- & Y)]; exists o; auto.
  - intros X. apply B. rewrite in_map_iff in *. destruct X as (o & <- & X). exists o. auto.
Qed.
Lemma firsts_in l x o : firsts_sorted l x -> In o x -> In o l.
Proof. intros [_ F] I. apply F in I as (l1 & l2 & -> & _). apply in_or_app. right. now left. Qed.
Lemma bracket_showable outs : (forall g, In g outs -> object_type (fst g)) -> Forall showable (flat_map snd outs) ->
  Forall showable_call (app (flat_map bracket outs) [CFinal]).
Proof.
  intros W H. apply Forall_app. split; [|repeat constructor].
  induction outs as [|g js IH]; [constructor|]. cbn [flat_map] in *. apply Forall_app in H. destruct H as [H1 H2].
  apply Forall_app. split; [|apply IH; [intros x X; apply W; right; exact X|exact H2]].
  assert (T : In (fst g) [NODE; WAY; RELATION]).
  { destruct (W g (or_introl eq_refl)) as [->|[->| ->]]; cbn; tauto. }
  unfold bracket. constructor; [exact T|]. apply Forall_app. split; [apply Forall_map; exact H1|]. constructor; [exact T|constructor].
Qed.
Lemma store_and_debug_shows change file : file_read file -> read_fully change -> read_fully file -> fst file <> [] ->
  types_ok (objects_of change) -> NoDup (map fst (join (fst file))) ->
  (forall run, In run (join (fst file)) -> run_fits (objects_of change) run) ->
  Forall showable (objects_of change) -> Forall showable (objects_of file) ->
  exists text rs outs, store_and_debug change file = (text, None) /\ read_dump text = Some rs /\
    Forall2 (applied (objects_of change)) (join (fst file)) outs /\
    Forall2 (shows_call meta_new false) rs (CInit :: flat_map bracket outs ++ [CFinal]).
Proof.
  intros F RC RF N TO ND FI S1 S2. destruct (file_typed file F) as [W _].
  destruct (store_contents _ TO) as (ns & ws & rs & E & F1 & F2 & F3).
  set (st := mkOS ns ws rs) in *.
  assert (G : forall t, object_type t -> firsts_sorted (ofilter t (objects_of change)) (os_get t st)) by (intros t [->|[->| ->]]; assumption).
  pose proof (join_well_typed (fst file) W) as WJ.
  assert (OK : forall r, In r (join (fst file)) -> run_ok st r).
  { intros r I. destruct (FI r I) as [K1 K2]. pose proof (WJ r I) as WT. pose proof (G (fst r) (proj1 WT)) as FS.
    split; [exact WT|]. split; [|split; [apply FS|exact K2]]. revert K1. apply keys_incl. intros o J. apply in_app_or in J as [J|J]; apply in_or_app; [|now right].
    left. exact (firsts_in _ _ _ FS J). }
  destruct (apply_merges st (join (fst file)) ND OK) as (outs & M & T).
  assert (TO2 : forall g, In g outs -> object_type (fst g)).
  { intros g I. clear - M I WJ. induction M as [|a b la lb H M IH]; [contradiction|]. destruct I as [<-|I].
    - rewrite (proj1 H). apply (WJ a (or_introl eq_refl)).
    - apply IH; auto. intros; apply WJ; now right. }
  assert (SH : Forall showable (flat_map snd outs)).
  { assert (Q : forall o, In o (flat_map snd outs) -> In o (objects_of change) \/ In o (flat_map snd (join (fst file)))).
    { clear - M G WJ. induction M as [|a b la lb H M IH]; [contradiction|]. intros o I. cbn [flat_map] in *. apply in_app_or in I as [I|I].
      - destruct H as (H1 & H2 & _). apply (Permutation_in _ H2) in I. apply in_app_or in I as [I|I]; [left|right; apply in_or_app; now left].
        apply (firsts_in _ _ _ (G _ (proj1 (WJ a (or_introl eq_refl))))) in I. unfold ofilter in I. apply filter_In in I. apply I.
      - destruct (IH ltac:(intros; apply WJ; now right) o I); [now left|right; apply in_or_app; now right]. }
    apply Forall_forall. intros o I. destruct (Q o I) as [J|J].
    - rewrite Forall_forall in S1. now apply S1.
    - rewrite join_objects in J. rewrite Forall_forall in S2. now apply S2. }
  assert (NI : ~ In CInit (app (flat_map bracket outs) [CFinal])).
  { intros X. apply in_app_or in X. destruct X as [X|[X|[]]]; [|discriminate X]. exact (proj1 (bracket_no_init _) X). }
  assert (SM : showable_meta meta_new) by (repeat split; try discriminate; intros []).
  destruct (debug_init_calls meta_new false _ SM (bracket_showable outs TO2 SH) NI (debug_new false false)) as (s & ls & TK & O & D).
  destruct (T _ (debug meta_new false) _ _ TK) as (st' & TK2).
  change (CInit :: flat_map bracket (join (fst file)) ++ [CFinal]) with (protocol (fst file) ++ [CFinal]) in TK2.
  destruct (takes_snoc _ _ _ _ _ _ TK2) as (s1 & T1 & FN).
  pose proof (no_throw _ _ (fst file) _ s1 N W T1) as Q. rewrite FN in Q. cbn [fst snd] in Q.
  destruct D as [L _ (rs' & R & S)]. cbn [debug_new d_hist d_out String.append orb] in *.
  exists (d_out s), rs', outs. split; [|split; [|split; [|exact S]]].
  - unfold store_and_debug. rewrite (store_read change st RC E). unfold input_read. rewrite RF. cbn [snd fst]. unfold observe in Q.
    destruct (parse (stacked (debug meta_new false) apply_prog) (fst file) None (apply_new st, debug_new false false)) as [y h].
    cbn [fst snd] in Q. injection Q as Q1 Q2 Q3. rewrite Q2, Q3. reflexivity.
  - unfold read_dump. rewrite O, (lines_unlines ls L). apply R. apply le_n.
  - clear - M G WJ. induction M as [|a b la lb H M IH]; constructor.
    + destruct H as (H1 & H2 & H3). split; [exact H1|]. exists (os_get (fst a) st). split; [apply G, (WJ a (or_introl eq_refl))|auto].
    + apply IH. intros; apply WJ; now right.
Qed.

(* ---- osmium_time ---- *)
Lemma timer_quiet : quiet timer.
Proof. split; reflexivity. Qed.
Lemma timer_never : never_stops timer.
Proof. intros [| |[]| | |] s s'; discriminate. Qed.
Definition modu (n : Z) : Z := n mod 18446744073709551616.
Lemma timer_objs os : forall a b c,
  feed_objs timer os (mkTS (modu a) (modu b) (modu c) "") =
  (mkTS (modu (a + count_of NODE os)) (modu (b + count_of WAY os)) (modu (c + count_of RELATION os)) "", None).
Proof.
  induction os as [|o os IH]; intros a b c.
  - cbn [feed_objs]. unfold count_of, ofilter. cbn [filter List.length]. rewrite !Z.add_0_r. reflexivity.
  - assert (M : forall x, to_u64 (modu x + 1) = modu (x + 1)) by (intros x; unfold to_u64, modu; rewrite Z.add_mod_idemp_l by lia; reflexivity).
    assert (N : forall t, count_of t (o :: os) = (if otype_eqb (obj_type o) t then 1 else 0) + count_of t os).
    { intros t. unfold count_of, ofilter. cbn [filter]. destruct (otype_eqb (obj_type o) t); cbn [List.length]; lia. }
    rewrite !N. cbn [feed_objs]. destruct o; cbn [timer obj_type otype_eqb ts_nodes ts_ways ts_rels ts_out]; rewrite M, IH, ?Z.add_0_l, Z.add_assoc; reflexivity.
Qed.
Lemma timer_read r s : file_read r -> read_fully r -> s = mkTS 0 0 0 "" ->
  input_read timer r s =
  (mkTS (modu (count_of NODE (objects_of r))) (modu (count_of WAY (objects_of r))) (modu (count_of RELATION (objects_of r)))
    ("nodes: " ++ print_Z (modu (count_of NODE (objects_of r))) ++ "  ways: " ++ print_Z (modu (count_of WAY (objects_of r)))
     ++ "  relations: " ++ print_Z (modu (count_of RELATION (objects_of r))) ++ nl)%string, None, true).
Proof.
  intros F R ->. destruct (file_typed r F) as [W _]. unfold input_read. rewrite R. unfold objects_of.
  destruct (fst r) as [|g gs] eqn:G.
  - reflexivity.
  - pose proof (parse_staged _ timer (g :: gs) (mkTS 0 0 0 "") timer_quiet timer_never ltac:(discriminate) W) as P.
    destruct (parse timer (g :: gs) None (mkTS 0 0 0 "")) as [y h]. cbn [fst snd] in P.
    unfold staged in P. cbn [timer] in P.
    change (mkTS 0 0 0 "") with (mkTS (modu 0) (modu 0) (modu 0) "") in P. rewrite timer_objs in P. rewrite !Z.add_0_l in P.
    injection P as P1 P2. rewrite P1, P2. reflexivity.
Qed.
Lemma time_counts elapsed r : file_read r -> read_fully r ->
  exists a b c e, osmium_time elapsed r =
    (("nodes: " ++ a ++ "  ways: " ++ b ++ "  relations: " ++ c ++ String "010" ("wallclock time: " ++ e ++ "s" ++ String "010" ""))%string, None) /\
    int_text a (count_of NODE (objects_of r) mod 2 ^ 64) /\ int_text b (count_of WAY (objects_of r) mod 2 ^ 64) /\
    int_text c (count_of RELATION (objects_of r) mod 2 ^ 64) /\ int_text e elapsed.
Proof.
  intros F R. unfold osmium_time. rewrite (timer_read r _ F R eq_refl). cbn [ts_out].
  eexists _, _, _, _. split; [|split; [|split; [|split]]; apply print_int].
  f_equal. rewrite !sapp_assoc. reflexivity.
Qed.
(** nothing is written before final() *)
Section Unwritten.
  Context {S : Type}.
  Variables (step : callback -> S -> S * option halt) (P : S -> Prop).
  Hypothesis H : forall c s, c <> CFinal -> P s -> P (fst (step c s)).
  Hypothesis N : never_stops step.
  Definition holds (x : rstate S * option halt) : Prop := P (r_handler (fst x)).
  Lemma holds_call c st : c <> CFinal -> P (r_handler st) -> holds (call step c st).
  Proof. intros C Q. unfold holds, call. specialize (H c (r_handler st) C Q). destruct (step c (r_handler st)); exact H. Qed.
  Lemma holds_then x f : holds x -> (forall st, P (r_handler st) -> holds (f st)) -> holds (andthen x f).
  Proof. destruct x as [st [h|]]; intros A B; [exact A|apply B, A]. Qed.
  Lemma holds_switch t st : P (r_handler st) -> holds (call_after_and_before step t st).
  Proof.
    intros Q. unfold call_after_and_before. destruct (negb _); [|exact Q].
    apply holds_then; [unfold call_after; destruct (r_last st); first [apply holds_call; [discriminate|exact Q]|exact Q]|]. intros st1 Q1.
    apply holds_then; [unfold call_before; destruct t; first [apply holds_call; [discriminate|exact Q1]|exact Q1]|]. intros st2 Q2. exact Q2.
  Qed.
  Lemma holds_objects os : forall st, P (r_handler st) -> holds (call_objects step os st).
  Proof. induction os as [|o os IH]; intros st Q; [exact Q|]. apply holds_then; [apply holds_call; [discriminate|exact Q]|exact IH]. Qed.
  Lemma holds_groups gs : forall st, P (r_handler st) -> holds (read_groups step gs st).
  Proof.
    induction gs as [|[t os] gs IH]; intros st Q; [exact Q|]. apply holds_then; [apply holds_switch; exact Q|]. intros st1 Q1.
    apply holds_then; [apply holds_objects; exact Q1|exact IH].
  Qed.
  Lemma holds_failed r s : file_read r -> ~ read_fully r -> P s -> exists s' h, input_read step r s = (s', Some h, false) /\ P s'.
  Proof.
    intros F NR Q. destruct (file_typed r F) as [_ NS]. unfold input_read, read_fully in *.
    pose proof (holds_groups (fst r) (mkR UNKNOWN s []) Q) as G. pose proof (on_groups step N (fst r) (mkR UNKNOWN s [])) as O.
    unfold goes_on in O. unfold parse. destruct (read_groups step (fst r) (mkR UNKNOWN s [])) as [st [h|]]; cbn [snd andthen] in *; unfold holds in G; cbn [fst] in G.
    - destruct (snd r) as [[]|e| |]; [now destruct NR| | |]; (destruct h as [[]|]; [..|eexists _, _; split; [reflexivity|exact G]]);
        first [eexists _, _; split; [reflexivity|exact G]|now destruct O].
    - destruct (snd r) as [[]|e| |]; [now destruct NR| | |]; try (eexists _, _; split; [reflexivity|exact G]).
      destruct e; first [eexists _, _; split; [reflexivity|exact G]|idtac]. exfalso. apply NS. reflexivity.
  Qed.
End Unwritten.
Lemma time_fails elapsed r : file_read r -> ~ read_fully r -> exists h, osmium_time elapsed r = (""%string, Some h).
Proof.
  intros F NR. destruct (holds_failed timer (fun s => ts_out s = ""%string)) with (r := r) (s := mkTS 0 0 0 "") as (s' & h & E & Q); auto.
  - intros [| |[]| | |] s C Q; try exact Q. now destruct C.
  - exact timer_never.
  - exists h. unfold osmium_time. rewrite E, Q. reflexivity.
Qed.
Lemma obj_less_never a b e : obj_less a b <> Throw e.
Proof.
  unfold obj_less, obj_lt, std_abs. destruct (_ =? _); [discriminate|]. destruct (_ =? int64_min); cbn [obind]; [discriminate|].
  destruct (_ =? int64_min); cbn [obind]; discriminate.
Qed.
Lemma oset_insert_never o s e : oset_insert o s <> Throw e.
Proof.
  induction s as [|x r IH]; [discriminate|]. cbn [oset_insert]. pose proof (obj_less_never o x e) as A. pose proof (obj_less_never x o e) as B.
  destruct (obj_less o x) as [[]| | |]; cbn [obind]; try discriminate; try congruence.
  destruct (obj_less x o) as [[]| | |]; cbn [obind]; try discriminate; try congruence.
  destruct (oset_insert o r); cbn [obind]; congruence.
Qed.
Lemma store_never : never_stops store_handler.
Proof.
  intros [| |o| | |] s s'; try discriminate. cbn [store_handler]. intros C.
  assert (E : ostore_add o s = Throw EStopReading) by (destruct (ostore_add o s); cbn [halting] in C; congruence).
  destruct o as [n|n|n]; cbn [ostore_add] in E; destruct (oset_insert _ _) eqn:I in E; try discriminate E; exact (oset_insert_never _ _ _ I).
Qed.
Lemma store_and_debug_fails change file : file_read change -> ~ read_fully change -> exists h, store_and_debug change file = (""%string, Some h).
Proof.
  intros F NR. destruct (holds_failed store_handler (fun _ => True)) with (r := change) (s := ostore_new) as (s' & h & E & _); auto.
  - exact store_never.
  - exists h. unfold store_and_debug. rewrite E. reflexivity.
Qed.

(* ---- osmium_find_bbox ---- *)
Lemma bbox_positions ps b : is_bbox ps b -> (forall p, In p ps -> in_i32 (px p) /\ in_i32 (py p)) ->
  (in_i32 (px (bottom_left b)) /\ in_i32 (py (bottom_left b))) /\ (in_i32 (px (top_right b)) /\ in_i32 (py (top_right b))).
Proof.
  intros [_ (p1 & I1 & <-) (p2 & I2 & <-) (p3 & I3 & <-) (p4 & I4 & <-)] H.
  pose proof (H _ I1). pose proof (H _ I2). pose proof (H _ I3). pose proof (H _ I4). tauto.
Qed.
Lemma bbox_shows r ns rest : file_read r -> read_fully r -> join (fst r) = (NODE, ns) :: rest -> ns <> [] ->
  (forall p, In p (node_positions ns) -> located p /\ in_i32 (px p) /\ in_i32 (py p)) ->
  exists b x1 y1 x2 y2, is_bbox (node_positions ns) b /\
    osmium_find_bbox r = (("minlon=" ++ x1 ++ " minlat=" ++ y1 ++ " maxlon=" ++ x2 ++ " maxlat=" ++ y2 ++ String "010" "")%string, None) /\
    near_text x1 (px (bottom_left b)) /\ near_text y1 (py (bottom_left b)) /\ near_text x2 (px (top_right b)) /\ near_text y2 (py (top_right b)).
Proof.
  intros F R J N L. destruct (file_typed r F) as [W _].
  pose proof (find_bbox_reads (fst r) ns rest W J) as Q.
  pose proof (find_bbox_box (fst r) ns rest W J N (fun p I => proj1 (L p I))) as B.
  destruct (bbox_positions _ _ B (fun p I => proj2 (L p I))) as [[B1 B2] [B3 B4]].
  unfold osmium_find_bbox, input_read. rewrite R.
  destruct (parse find_bbox (fst r) None bounds_new) as [y h]. unfold observe in Q. cbn [fst snd] in *. injection Q as _ _ ->.
  exists (r_handler y). eexists _, _, _, _. split; [exact B|]. split; [reflexivity|].
  unfold pos_lon, pos_lat. auto using double_near.
Qed.
