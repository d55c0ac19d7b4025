(** What happens when something fails: a geometry of another kind, a file that cannot be opened, a first pass that ends with an exception, a call of Shapelib. *)
From Verif Require Import Base.Prelude Model.Osm Model.Float Model.Geom Model.Shapefile Model.Handler Model.Assembler Model.Osmjs Model.Toshape
  Spec.OsmSpec Spec.HandlerSpec Spec.GeomSpec Spec.ShapefileSpec Spec.ToshapeSpec Proofs.GeomProofs Proofs.HandlerProofs Proofs.Handler2Proofs Proofs.ObjectsOnly Proofs.ShapefileProofs Proofs.Shapefile2Proofs Proofs.ToshapeProofs Proofs.Toshape2Proofs.
From Verif Require Import Model.OsmFile Model.Convert Model.ConvertMain Spec.OsmFileSpec Spec.ConvertMainSpec Proofs.ConvertProofs Proofs.ConvertMainProofs Proofs.ConvertMain2Proofs.

Lemma dump_unknown g : ~ geos_known g -> forall d, dump_geometry g d = Throw ERuntime.
Proof.
  induction g as [cs|e hs|l IH|] using geos_ind'; intros K d; try (exfalso; apply K; exact I); [|reflexivity].
  cbn [dump_geometry]. revert d. induction l as [|x l IHl]; intros d; [exfalso; apply K; exact I|].
  inversion IH as [|? ? Hx Hl]; subst.
  assert (D : geos_known x \/ ~ geos_known x).
  { clear. induction x as [cs|e hs|l IH|] using geos_ind'; [left; exact I|left; exact I| |right; intros []].
    induction l as [|y l IHl]; [left; exact I|]. inversion IH as [|? ? Hy Hl]; subst.
    destruct Hy as [Hy|Hy]; [|right; intros [A _]; exact (Hy A)].
    destruct (IHl Hl) as [A|A]; [left; split; assumption|right; intros [_ B]; exact (A B)]. }
  destruct D as [D|D].
  - rewrite (dump_known x D). cbn [obind]. apply (IHl Hl). intros A. apply K. split; assumption.
  - rewrite (Hx D). reflexivity.
Qed.
Lemma unknown_thm g : ~ geos_known g -> multipolygon_shp g = Throw ERuntime.
Proof. intros K. unfold multipolygon_shp. rewrite (dump_unknown g K). reflexivity. Qed.

Lemma first_open opens type : opens 0 = false -> shapefile_new opens type = Throw ERuntime.
Proof. intros O. unfold shapefile_new, open. cbn [ss_seq]. rewrite O. reflexivity. Qed.
(* ---- convert ---- *)
Section Env.
  Context {L E : Type}.
  Variable v : environment L E.
  Lemma no_output o w n1 n2 te2 : co_args o = [n1; n2] -> given_as n2 (co_to o) te2 -> disk_name n2 ->
    snd te2 = FePBF \/ snd te2 = FeXML -> ev_creates v n2 = false -> convert_main v o w = (w, Throw ESystem).
  Proof.
    intros A G D P C. unfold convert_main. rewrite A. cbn [nth]. rewrite (convert_file_spec _ _ _ G).
    unfold open_output. rewrite (disk_file _ _ D), (disk_nonempty _ D), C. destruct te2 as [t e]. cbn [file_of of_enc snd fst] in *.
    destruct P as [-> | ->]; reflexivity.
  Qed.
  Lemma no_input o w n1 te1 n2 te2 : co_args o = [n1; n2] -> given_as n1 (co_from o) te1 -> given_as n2 (co_to o) te2 -> disk_name n1 -> disk_name n2 ->
    snd te1 = FePBF \/ snd te1 = FeXML -> n1 <> n2 -> wd_files w n1 = None ->
    snd (convert_main v o w) = Throw ESystem.
  Proof.
    intros A G1 G2 D1 D2 P N M.
    destruct (input_loaded v o w n1 te1 n2 te2 A G1 G2 D2 N) as (I & O & LD). rewrite A in I, O, LD. cbn [nth] in I, O, LD.
    unfold convert_main. rewrite A. cbn [nth]. rewrite I, O in *.
    assert (LN : load v (file_of n1 te1) w = Throw ESystem).
    { unfold load, input_bytes. rewrite (disk_file _ _ D1), (disk_nonempty _ D1), (disk_not_url _ D1), M. destruct te1 as [t e]. cbn [file_of of_enc snd fst] in *.
      destruct P as [-> | ->]; reflexivity. }
    rewrite LN in LD. destruct (open_output v (file_of n2 te2) w) as [w1 [b|e| |]] eqn:X; cbn [fst] in LD.
    - rewrite LD. reflexivity.
    - unfold open_output in X. destruct (of_enc _); repeat match type of X with context [if ?q then _ else _] => destruct q end; try discriminate X; injection X; intros; subst; reflexivity.
    - unfold open_output in X. destruct (of_enc _); repeat match type of X with context [if ?q then _ else _] => destruct q end; try discriminate X; injection X; intros; subst; reflexivity.
    - unfold open_output in X. destruct (of_enc _); repeat match type of X with context [if ?q then _ else _] => destruct q end; try discriminate X; injection X; intros; subst; reflexivity.
  Qed.
End Env.

(* ---- toshape ---- *)
Lemma add_row_ends opens (Hopen : forall k, opens k = true) lib type parts name ps id text ly k ly' k' r : type <> SHPT_UNKNOWN -> small_points type parts ps -> filed type parts name ly ->
  add_row lib opens type parts ps id text ly k = (ly', k', r) -> r = Ok tt \/ r = Throw ERuntime.
Proof.
  intros U [So Sm] (K & c & I & Sh) E.
  destruct (add_row_done _ _ _ _ _ _ _ _ _ _ _ _ _ K U E) as (NI & _ & _).
  unfold add_row, lbind, add_shape in E. set (o := mkShp _ _ _ _) in E.
  destruct (add_geometry_inv opens Hopen (two_fields name) (ly_shp ly) c o (lib k) I So Sm) as (s1 & c1 & r1 & G & I1 & T1 & R1).
  rewrite G in E. destruct (add_geometry_same _ _ _ _ _ _ G) as [F1 _]. destruct K as [_ KF].
  destruct R1 as [[-> _]|[[-> | ->] _]]; [|injection E as <- <- <-; auto|injection E as <- <- <-; contradiction].
  unfold add_double in E. cbn beta iota zeta in E. destruct (lib (S k)); cbn beta iota zeta in E; [|injection E as <- <- <-; auto].
  destruct text as [v|]; [|injection E as <- <- <-; auto].
  unfold add_truncated in E. cbn [ly_shp] in E. rewrite F1, KF in E. cbn [nth_error f_width] in E.
  destruct (truncate_defined 30 (Toshape.text_bytes v) ltac:(lia)) as [t Ht]. rewrite Ht in E. unfold add_text in E. destruct (lib (S (S k))); injection E as <- <- <-; auto.
Qed.
Definition runtime (x : option halt) : Prop := x = None \/ x = Some (HExn ERuntime).
Lemma caught_runtime {A} (r : outcome A) u : r = Ok u \/ r = Throw ERuntime -> runtime (caught r).
Proof. intros [-> | ->]; [left|right]; reflexivity. Qed.

Section Run.
  Context {P N : Type}.
  Variable pset : Z -> position -> P -> outcome P.
  Variable pget : Z -> P -> outcome position.
  Variable nset : Z -> position -> N -> outcome N.
  Variable nget : Z -> N -> outcome position.
  Variable lib : nat -> bool.
  Variables op ol : Z -> bool.
  Hypothesis Hop : forall k, op k = true.
  Hypothesis Hol : forall k, ol k = true.
  Let h := toshape pset pget nset nget lib op ol.
  Lemma export_node_ends n (s s' : tstate P N) x : all_filed s -> export_node lib op n s = (s', x) -> runtime x.
  Proof.
    intros [A B] E. unfold export_node in E. destruct (get_value_by_key _ _); [|injection E as <- <-; left; reflexivity].
    destruct (String.eqb _ _); [|injection E as <- <-; left; reflexivity]. cbv zeta in E.
    destruct (add_row lib op SHPT_POINT 0 _ _ _ (t_points s) (t_calls s)) as [[ly k] r] eqn:R. injection E as <- <-.
    eapply caught_runtime. eapply (add_row_ends op Hop); [| |exact A|exact R]; [discriminate|apply one_point_small].
  Qed.
  Lemma export_way_ends w (s s' : tstate P N) x : all_filed s -> consistent (w_nodes w) -> fits_file (OWay w) -> export_way lib ol w s = (s', x) -> runtime x.
  Proof.
    intros [A B] Co Fi E. unfold export_way in E.
    destruct (get_value_by_key (o_tags (w_attrs w)) "highway") as [v|] eqn:G; [|injection E as <- <-; left; reflexivity].
    destruct (wnl_has_position (w_nodes w)) eqn:Hp.
    2:{ unfold line_or_polygon, linestring_new in E. cbn [fw_nodes] in E. rewrite Hp in E. cbn [negb caught] in E. injection E as <- <-. right. reflexivity. }
    pose proof (shp_thm (linestring_new (w_nodes w) false) Co Hp) as Q. cbn [fw_nodes linestring_new fw_reverse] in Q. cbv zeta in Q. rewrite Q in E. clear Q.
    unfold positions in E.
    destruct (Nat.ltb_spec (List.length (squeeze (map wn_pos (w_nodes w)))) 2) as [L|L]; [injection E as <- <-; left; reflexivity|].
    rewrite combine_lonlat in E. cbn [fits_file] in Fi.
    assert (Sm : small_points SHPT_ARC 1 (map lonlat (squeeze (map wn_pos (w_nodes w))))).
    { apply line_small. rewrite map_length. pose proof (squeeze_length (map wn_pos (w_nodes w))) as Q. rewrite map_length in Q. lia. }
    destruct (add_row lib ol SHPT_ARC 1 _ _ _ (t_lines s) (t_calls s)) as [[ly k] r] eqn:R. injection E as <- <-.
    eapply caught_runtime. eapply (add_row_ends ol Hol); [| |exact B|exact R]; [discriminate|exact Sm].
  Qed.
  Lemma toshape_ends os : forall s s' x os' st', cfw_run pset pget nset nget os (t_stores s) = Ok (os', st') -> Forall way_consistent os' -> Forall fits_file os' ->
    all_filed s -> run_objects h os s = (s', x) -> runtime x.
  Proof.
    induction os as [|o os IH]; intros s s' x os' st' C W F K E.
    - cbn in C, E. injection E as <- <-. left. reflexivity.
    - cbn [cfw_run] in C. cbn [run_objects] in E. unfold h at 1 in E. cbn [toshape] in E.
      destruct (cfw_step pset pget nset nget o (t_stores s)) as [[o1 st1]|e| |]; try discriminate C. cbn [obind fst snd] in C.
      destruct (cfw_run pset pget nset nget os st1) as [[r1 st2]|e| |] eqn:C1; try discriminate C. cbn [obind fst snd] in C. injection C as <- <-.
      inversion W as [|? ? W1 W2]; subst. inversion F as [|? ? F1 F2]; subst. cbv zeta in E.
      set (s1 := mkT st1 (t_points s) (t_lines s) (t_calls s)) in E.
      assert (K1 : all_filed s1) by exact K.
      assert (Step : forall s2 y, all_filed s2 /\ t_stores s2 = st1 /\ runtime y ->
        (match y with None => run_objects h os s2 | Some z => (s2, Some z) end) = (s', x) -> runtime x).
      { intros s2 y (K2 & S2 & Y) R. destruct y as [y|].
        - injection R as <- <-. exact Y.
        - eapply (IH s2 s' x r1 st2); [rewrite S2; exact C1|exact W2|exact F2|exact K2|exact R]. }
      destruct o1 as [n|w|r].
      + destruct (export_node lib op n s1) as [s2 y] eqn:X. destruct (export_node_filed lib op Hop n s1 s2 y K1 X) as (A & B & D). apply (Step s2 y); [|exact E].
        split; [exact A|]. split; [exact B|]. exact (export_node_ends n s1 s2 y K1 X).
      + destruct (export_way lib ol w s1) as [s2 y] eqn:X. destruct (export_way_filed pset pget nset nget lib op ol Hol w s1 s2 y K1 W1 F1 X) as (A & B & D & _). apply (Step s2 y); [|exact E].
        split; [exact A|]. split; [exact B|]. exact (export_way_ends w s1 s2 y K1 W1 F1 X).
      + apply (Step s1 None); [|exact E]. split; [exact K1|]. split; [reflexivity|]. left. reflexivity.
  Qed.
End Run.
Lemma toshape_failing P N (pset : Z -> position -> P -> outcome P) pget (nset : Z -> position -> N -> outcome N) nget
    p0 n0 dflt (domp domn : Z -> Prop) :
  store_works pset pget p0 dflt domp -> store_works nset nget n0 dflt domn -> forall lib op ol gs,
  (forall o id, In o (flat_map snd gs) -> In id (used_ids o) -> id_ok domp domn id) ->
  (forall k, op k = true) -> (forall k, ol k = true) -> Forall fits_file (flat_map snd gs) -> forall s0 s r b,
  toshape_new lib op ol p0 n0 = Ok s0 -> input_read (toshape pset pget nset nget lib op ol) (gs, Ok tt) s0 = (s, r, b) ->
  r = None \/ r = Some (HExn ERuntime).
Proof.
  intros Sp Sn lib op ol gs Ids Hop Hol Fit s0 s r b E0 E. destruct (cfw_correct pset pget nset nget p0 n0 dflt domp domn Sp Sn (flat_map snd gs) Ids) as [st C].
  destruct (toshape_new_kinds _ _ _ _ _ _ E0) as (K & R1 & R2 & S0). rewrite <- S0 in C.
  rewrite (objects_read _ (toshape_acts pset pget nset nget lib op ol)) in E.
  destruct (run_objects _ (flat_map snd gs) s0) as [s1 x] eqn:R.
  pose proof (toshape_ends pset pget nset nget lib op ol Hop Hol (flat_map snd gs) s0 s1 x _ _ C (stream_consistent dflt _ []) (fits_located dflt _ Fit []) (new_filed p0 n0 lib op ol Hop Hol s0 E0) R) as X.
  cbn [ended] in E. destruct X as [-> | ->]; injection E as <- <- <-; auto.
Qed.

(* ---- osmjs ---- *)
Section First.
  Variables (select : relation -> bool) (keep : relation -> member -> bool) (srt : list minfo -> list minfo).
  Let h := pass1 select keep srt.
  Lemma call_quiet c st : c <> CAfter RELATION -> exists st', call h c st = (st', None) /\ r_last st' = r_last st.
  Proof.
    intros N. unfold call, h, pass1. destruct c; try (eexists; split; reflexivity); [match goal with o : object |- _ => destruct o end; eexists; split; reflexivity|].
    destruct t; try (eexists; split; reflexivity). destruct N. reflexivity.
  Qed.
  Lemma objects_quiet os : forall st, exists st', call_objects h os st = (st', None) /\ r_last st' = r_last st.
  Proof.
    induction os as [|o os IH]; intros st; cbn [call_objects]; [eexists; split; reflexivity|].
    destruct (call_quiet (CObj o) st ltac:(discriminate)) as (s1 & -> & L1). cbn [andthen]. destruct (IH s1) as (s2 & -> & L2). exists s2. split; [reflexivity|congruence].
  Qed.
  Lemma change_quiet t st : r_last st <> RELATION \/ t = RELATION -> exists st', call_after_and_before h t st = (st', None) /\ r_last st' = t.
  Proof.
    intros H. unfold call_after_and_before. destruct (otype_eqb t (r_last st)) eqn:Q; cbn [negb].
    { exists st. split; [reflexivity|]. destruct t, (r_last st); try discriminate Q; reflexivity. }
    assert (A : exists s1, call_after h st = (s1, None)).
    { unfold call_after. destruct (r_last st) eqn:R; try (eexists; reflexivity);
      try (match goal with |- context [call h ?c st] => destruct (call_quiet c st ltac:(discriminate)) as (s1 & -> & _) end; eexists; reflexivity).
      destruct H as [H|H]; [congruence|]. subst t. discriminate Q. }
    destruct A as [s1 ->]. cbn [andthen].
    assert (B : exists s2, call_before h t s1 = (s2, None)).
    { unfold call_before. destruct t; try (eexists; reflexivity);
      match goal with |- context [call h ?c s1] => destruct (call_quiet c s1 ltac:(discriminate)) as (s2 & -> & _) end; eexists; reflexivity. }
    destruct B as [s2 ->]. cbn [andthen]. eexists. split; reflexivity.
  Qed.
  Lemma groups_quiet gs : forall st, (r_last st <> RELATION /\ exists a b, gs = a ++ b /\ Forall (fun g => fst g <> RELATION) a /\ Forall (fun g => fst g = RELATION) b) \/
      Forall (fun g => fst g = RELATION) gs -> exists st', read_groups h gs st = (st', None).
  Proof.
    induction gs as [|[t os] gs IH]; intros st H; cbn [read_groups]; [eexists; reflexivity|].
    assert (X : r_last st <> RELATION \/ t = RELATION) by (destruct H as [[H _]|H]; [auto|inversion H; subst; auto]).
    destruct (change_quiet t st X) as (s1 & -> & L1). cbn [andthen]. destruct (objects_quiet os s1) as (s2 & -> & L2). cbn [andthen]. apply IH.
    destruct H as [(R & a & b & E & A & B)|H]; [|right; inversion H; assumption].
    destruct a as [|g a]; cbn [app] in E.
    - subst b. right. inversion B; assumption.
    - injection E as <- E. inversion A as [|? ? A1 A2]; subst. cbn [fst] in A1. left. split; [congruence|]. exists a, b. auto.
  Qed.
  Lemma pass1_ends a b e s : e <> EStopReading -> Forall (fun g => fst g <> RELATION) a -> Forall (fun g => fst g = RELATION) b ->
    snd (parse h (a ++ b) (Some e) s) = Some (HExn e).
  Proof.
    intros N A B. unfold parse. destruct (groups_quiet (a ++ b) (mkR UNKNOWN s [])) as [st' ->].
    - left. split; [discriminate|]. exists a, b. auto.
    - cbn [andthen]. destruct e; try reflexivity. destruct N. reflexivity.
  Qed.
End First.
Lemma first_pass_fails : forall (S F P N : Type) load boot eval func invoke pset pget nset nget store store_neg build srt contents cfg file args cb s a b e,
  js_new load boot eval func args (c_includes cfg) (c_js cfg) = Go (cb, s) -> c_two cfg = true -> c_store cfg <> LNone ->
  contents 0%nat file = (a ++ b, Some e) -> e <> EStopReading -> Forall (fun g => fst g <> RELATION) a -> Forall (fun g => fst g = RELATION) b ->
  @passes S F load boot eval func invoke P N pset pget nset nget store store_neg build srt contents cfg file args =
  Go (mkEnd [file] s (Some (HExn e))).
Proof.
  intros S F P N load boot eval func invoke pset pget nset nget store store_neg build srt contents cfg file args cb s a b e J T C R Ne A B.
  unfold passes. rewrite J. cbn [gbind]. rewrite T, R. pose proof (pass1_ends mp_select mp_keep srt a b e (asm_new mp_want) Ne A B) as X. rewrite X.
  destruct (c_store cfg); [contradiction|reflexivity..].
Qed.
