(** Proofs about the scripts that watch the callbacks, with two passes. *)
From Verif Require Import Base.Prelude Base.Decimal Model.Osm Model.Handler Model.Assembler Model.Osmjs Model.Timing
  Spec.OsmSpec Spec.HandlerSpec Spec.AssemblerSpec Spec.OsmjsSpec Spec.ScriptsSpec Spec.TimingSpec
  Proofs.OsmjsProofs Proofs.Osmjs2Proofs Proofs.TimingProofs.
Local Open Scope Z_scope.

Lemma nth_forall2 {A B} (R : A -> list B -> Prop) : forall cs outs, List.length outs = List.length cs ->
  (forall p c q, cs = p ++ c :: q -> R c (nth (List.length p) outs [])) -> Forall2 R cs outs.
Proof.
  induction cs as [|c cs IH]; intros outs L H; destruct outs as [|o outs]; try discriminate L; constructor.
  - exact (H [] c cs eq_refl).
  - apply IH; [injection L as L; exact L|]. intros p c' q E. exact (H (c :: p) c' q (f_equal (cons c) E)).
Qed.
(* the callbacks handed on: those of ways after areas *)
Definition handed (rs : list relation) (c : callback) (out : list callback) : Prop :=
  match c with
  | CObj (OWay w) => exists l w', out = map CArea l ++ [CObj (OWay w')] /\ (area_shaped w -> ~ way_in rs w -> l <> [])
  | _ => out = [c]
  end.
Lemma mp_handed build rs p c out : mp_output build rs p c out -> handed rs c out.
Proof.
  destruct c as [|t|o|t|a|]; try exact (fun H => H). destruct o as [n|w|r]; try exact (fun H => H).
  intros (es & areas & own & _ & _ & -> & [(-> & A & B)|(-> & A)]).
  - exists (List.concat areas ++ [area_attrs w]), w. split; [rewrite map_app, <- app_assoc; reflexivity|]. intros _ _ E. destruct (List.concat areas); discriminate E.
  - exists (List.concat areas), w. split; [reflexivity|]. intros S N. destruct A as [A|A]; contradiction.
Qed.
Lemma handed_located rs dflt : forall cs seen outs, Forall2 (handed rs) (located_calls dflt seen cs) outs -> Forall2 (handed rs) cs outs.
Proof.
  induction cs as [|c cs IH]; intros seen outs H; [exact H|].
  destruct c as [|t|o|t|a|]; cbn [located_calls] in H; inversion H as [|? ? ? ? A B]; subst; constructor; try exact A; try (eapply IH; exact B).
  destruct o as [n|w|r]; cbn [locate] in A; try exact A. destruct A as (l & w' & E & X). exists l, w'. split; [exact E|]. intros S N. apply X.
  - destruct S as (x & a & b & mid & S). exists x, a, b, mid. cbn [w_nodes]. rewrite map_map. cbn [wn_ref]. exact S.
  - exact N.
Qed.
Lemma handed_same rs cs outs : Forall (fun c => match c with CObj (OWay _) => False | _ => True end) cs -> Forall2 (handed rs) cs outs -> List.concat outs = cs.
Proof.
  intros N H. induction H as [|c o cs outs A B IH]; [reflexivity|]. inversion N; subst. cbn [List.concat]. rewrite IH by assumption.
  destruct c as [|t|x|t|a|]; try (rewrite A; reflexivity). destruct x; [rewrite A; reflexivity|contradiction|rewrite A; reflexivity].
Qed.

(* ---- ways and areas ---- *)
Definition way_or_area (c : callback) : Prop := match c with CObj (OWay _) | CArea _ => True | _ => False end.
Notation go l := (play ct_invoke (js_calls (fun n => ct_func n ct_new) l)).
Lemma go_way w l s : go (CObj (OWay w) :: l) s = go l (if ct_way s then s else mkCt (ct_node s) true (ct_rel s) (ct_area s) (ct_out s ++ ["✔ way"%string])).
Proof. reflexivity. Qed.
Lemma go_area a l s : go (CArea a :: l) s = go l (if ct_area s then s else mkCt (ct_node s) (ct_way s) (ct_rel s) true (ct_out s ++ ["✔ area"%string])).
Proof. reflexivity. Qed.
Lemma both l : Forall way_or_area l -> forall s, ct_way s = true -> ct_area s = true -> go l s = s.
Proof.
  intros H. induction H as [|c l A H IH]; intros s W R; [reflexivity|]. destruct c as [|t|o|t|a|]; try destruct A; [destruct o; try destruct A|].
  - rewrite go_way, W. apply IH; assumption.
  - rewrite go_area, R. apply IH; assumption.
Qed.
Lemma way_done l : Forall way_or_area l -> forall s, ct_way s = true -> ct_area s = false ->
  go l s = s /\ (forall a, ~ In (CArea a) l) \/
  go l s = mkCt (ct_node s) true (ct_rel s) true (ct_out s ++ ["✔ area"%string]).
Proof.
  intros H. induction H as [|c l A H IH]; intros s W R; [left; split; [reflexivity|intros a []]|]. destruct c as [|t|o|t|a|]; try destruct A; [destruct o as [?|w|?]; try destruct A|].
  - rewrite go_way, W. destruct (IH s W R) as [[E N]|E]; [left; split; [exact E|intros a [X|X]; [discriminate X|exact (N a X)]]|right; exact E].
  - rewrite go_area, R. right. rewrite both by (auto; rewrite ?W; auto). rewrite W. reflexivity.
Qed.
Lemma area_done l : Forall way_or_area l -> forall s, ct_way s = false -> ct_area s = true -> (exists w, In (CObj (OWay w)) l) ->
  go l s = mkCt (ct_node s) true (ct_rel s) true (ct_out s ++ ["✔ way"%string]).
Proof.
  intros H. induction H as [|c l A H IH]; intros s W R (w & I); [destruct I|]. destruct c as [|t|o|t|a|]; try destruct A; [destruct o as [?|w'|?]; try destruct A|].
  - rewrite go_way, W. rewrite both by auto. rewrite R. reflexivity.
  - rewrite go_area, R. apply IH; auto. destruct I as [I|I]; [discriminate I|]. exists w. exact I.
Qed.
Lemma none_done l : Forall way_or_area l -> forall s, ct_way s = false -> ct_area s = false -> (exists w, In (CObj (OWay w)) l) ->
  exists mid b, go l s = mkCt (ct_node s) true (ct_rel s) b (ct_out s ++ mid) /\
    (mid = ["✔ way"] /\ (forall a, ~ In (CArea a) l) \/ mid = ["✔ area"; "✔ way"] \/ mid = ["✔ way"; "✔ area"])%string.
Proof.
  intros H s W R (w & I). destruct H as [|c l A H]; [destruct I|]. destruct c as [|t|o|t|a|]; try destruct A; [destruct o as [?|w'|?]; try destruct A|].
  - rewrite go_way, W, R.
    destruct (way_done l H (mkCt (ct_node s) true (ct_rel s) false (ct_out s ++ ["✔ way"%string])) eq_refl eq_refl) as [[E N]|E]; rewrite E; cbn [ct_node ct_rel ct_out].
    + exists ["✔ way"%string], false. split; [reflexivity|]. left. split; [reflexivity|]. intros a [X|X]; [discriminate X|exact (N a X)].
    + exists ["✔ way"; "✔ area"]%string, true. rewrite <- app_assoc. split; [reflexivity|]. auto.
  - rewrite go_area, R, W. rewrite area_done; auto.
    + exists ["✔ area"; "✔ way"]%string, true. cbn [ct_node ct_rel ct_out]. rewrite <- app_assoc. split; [reflexivity|]. auto.
    + destruct I as [I|I]; [discriminate I|]. exists w. exact I.
Qed.

Lemma tail_lines b out : ct_out (go [CAfter RELATION; CFinal] (fst (ct_invoke "relation" OnFunction (go [CAfter WAY; CBefore RELATION] (mkCt true true false b out))))) =
  out ++ ["✔ after_ways"; "✔ before_relations"; "✔ relation"; "✔ after_relations"; "✔ end"]%string.
Proof.
  change (ct_out _) with (((((out ++ ["✔ after_ways"%string]) ++ ["✔ before_relations"%string]) ++ ["✔ relation"%string]) ++ ["✔ after_relations"%string]) ++ ["✔ end"%string]).
  rewrite <- !app_assoc. reflexivity.
Qed.
Lemma areas_run : forall (P N : Type) load boot eval pset pget nset nget store store_neg build srt contents dflt domp domn,
  store_works nset nget store_neg dflt domn -> forall cfg file args cb gs ns ws rs,
  js_new load boot eval ct_func args (c_includes cfg) (c_js cfg) = Go (cb, ct_new) -> c_two cfg = true -> c_store cfg <> LNone ->
  store_works pset pget (store (c_store cfg)) dflt domp -> sorts srt -> (forall r ms, exists l, build (c_repair cfg) r ms = Ok l) ->
  contents 0%nat file = (gs, None) -> contents 1%nat file = (gs, None) -> (forall g, In g gs -> well_typed g) ->
  sorted_file (join gs) -> (forall w, In (OWay w) (flat_map snd gs) -> way_ok w) ->
  (forall o id, In o (flat_map snd gs) -> In id (used_ids o) -> id_ok domp domn id) ->
  join gs = [(NODE, ns); (WAY, ws); (RELATION, rs)] -> ns <> [] -> ws <> [] -> rs <> [] ->
  exists e mid,
    @passes cts string load boot eval ct_func ct_invoke P N pset pget nset nget store store_neg build srt contents cfg file args = Go e /\ e_halt e = None /\
    ct_out (e_state e) = ["✔ init"; "✔ before_nodes"; "✔ node"; "✔ after_nodes"; "✔ before_ways"]%string ++ mid ++
      ["✔ after_ways"; "✔ before_relations"; "✔ relation"; "✔ after_relations"; "✔ end"]%string /\
    (mid = ["✔ way"] \/ mid = ["✔ area"; "✔ way"] \/ mid = ["✔ way"; "✔ area"])%string /\
    ((exists w, In (OWay w) ws /\ area_shaped w /\ ~ way_in (first_relations gs) w) -> In "✔ area"%string mid).
Proof.
  intros P N load boot eval pset pget nset nget store store_neg build srt contents dflt domp domn SN cfg file args cb gs ns ws rs J C2 CS SP SO B R0 R1 W SF WO U E N1 N2 N3.
  assert (Ne : gs <> []) by (intros ->; discriminate E).
  destruct (areas_thm load boot eval ct_func ct_invoke pset pget nset nget store store_neg build srt contents dflt domp domn SN cfg file args cb ct_new gs J C2 CS SP SO B R0 R1 Ne W SF WO U) as (outs & G & L & O).
  pose proof (nth_forall2 _ _ _ L (fun p c q X => mp_handed _ _ _ _ _ (O p c q X))) as H. apply handed_located in H. clear O L.
  unfold protocol in H. rewrite E in H. cbn [flat_map bracket fst snd app] in H. rewrite app_nil_r in H. repeat (rewrite <- !app_assoc in H; cbn [app] in H).
  assert (T : forall t os, In (t, os) [(NODE, ns); (WAY, ws); (RELATION, rs)] -> Forall (fun o => obj_type o = t) os).
  { intros t os I. apply Forall_forall. rewrite <- E in I. pose proof (HandlerProofs.join_well_typed gs W _ I) as [_ X]. exact X. }
  pose proof (T NODE ns (or_introl eq_refl)) as TN. pose proof (T WAY ws (or_intror (or_introl eq_refl))) as TW. pose proof (T RELATION rs (or_intror (or_intror (or_introl eq_refl)))) as TR. clear T.
  change (CInit :: CBefore NODE :: map CObj ns ++ CAfter NODE :: CBefore WAY :: ?x) with ([CInit; CBefore NODE] ++ map CObj ns ++ [CAfter NODE; CBefore WAY] ++ x) in H.
  rewrite !app_assoc in H. rewrite <- (app_assoc _ (map CObj ws)) in H.
  apply Forall2_app_inv_l in H as (o1 & o2 & H1 & H2 & ->). apply Forall2_app_inv_l in H2 as (o3 & o4 & H3 & H4 & ->).
  assert (NW : forall t os, Forall (fun o => obj_type o = t) os -> t <> WAY -> Forall (fun c => match c with CObj (OWay _) => False | _ => True end) (map CObj os)).
  { intros t os T D. apply Forall_map. eapply Forall_impl; [|exact T]. intros o X. destruct o; try exact I. destruct D. symmetry. exact X. }
  rewrite !List.concat_app in G.
  apply handed_same in H1; [|apply Forall_app; split; [apply Forall_app; split; [repeat constructor|apply (NW NODE ns TN); discriminate]|repeat constructor]].
  apply handed_same in H4; [|constructor; [exact I|constructor; [exact I|apply Forall_app; split; [apply (NW RELATION rs TR); discriminate|repeat constructor]]]].
  rewrite H1, H4 in G.
  assert (K : Forall way_or_area (List.concat o3) /\ (ws <> [] -> exists w, In (CObj (OWay w)) (List.concat o3)) /\
    ((exists w, In (OWay w) ws /\ area_shaped w /\ ~ way_in (first_relations gs) w) -> exists a, In (CArea a) (List.concat o3))).
  { clear - H3 TW. revert o3 H3. induction TW as [|o ws X TW IH]; intros o3 H3; inversion H3 as [|? y ? o3' A B]; subst.
    - split; [constructor|]. split; [contradiction|]. intros (w & [] & _).
    - destruct (IH _ B) as (I1 & I2 & I3). destruct o as [?|w|?]; try discriminate X. destruct A as (l & w' & -> & S). cbn [List.concat]. split; [|split].
      + apply Forall_app. split; [|exact I1]. apply Forall_app. split; [apply Forall_map, Forall_forall; intros; exact I|constructor; [exact I|constructor]].
      + intros _. exists w'. apply in_or_app. left. apply in_or_app. right. left. reflexivity.
      + intros (x & [Q|Q] & Q1 & Q2).
        * injection Q as ->. specialize (S Q1 Q2). destruct l as [|a l]; [contradiction|]. exists a. left. reflexivity.
        * destruct I3 as (a & J); [exists x; auto|]. exists a. apply in_or_app. right. exact J. }
  destruct K as (K1 & K2 & K3).
  rewrite <- app_assoc in G. 
  assert (Q : forall l os s, go (l ++ os) s = go os (go l s)).
  { intros. unfold js_calls, choose, play. rewrite flat_map_app, fold_left_app. reflexivity. }
  eexists. 
  assert (S1 : go (([CInit; CBefore NODE] ++ map CObj ns) ++ [CAfter NODE; CBefore WAY]) ct_new =
    mkCt true false false false ["✔ init"; "✔ before_nodes"; "✔ node"; "✔ after_nodes"; "✔ before_ways"]%string).
  { rewrite !Q, (typed_run "node" NODE ns) by auto. reflexivity. }
  destruct (none_done _ K1 (mkCt true false false false ["✔ init"; "✔ before_nodes"; "✔ node"; "✔ after_nodes"; "✔ before_ways"]%string) eq_refl eq_refl (K2 N2)) as (mid & b & S2 & M).
  exists mid. split; [exact G|]. split; [reflexivity|]. split.
  - cbn [e_state]. unfold final_state. rewrite ?app_assoc. rewrite <- (app_assoc _ (List.concat o3)). rewrite <- ?app_assoc.
    rewrite ?app_assoc. 
    change (CAfter WAY :: CBefore RELATION :: map CObj rs ++ [CAfter RELATION; CFinal]) with ([CAfter WAY; CBefore RELATION] ++ map CObj rs ++ [CAfter RELATION; CFinal]).
    rewrite !Q. rewrite !Q in S1. rewrite S1, S2. rewrite (typed_run "relation" RELATION rs) by auto. cbn [ct_node ct_rel ct_out].
    rewrite tail_lines. rewrite <- app_assoc. reflexivity.
  - split; [tauto|]. intros X. destruct (K3 X) as (a & Ia). destruct M as [[_ M]|[->| ->]]; [destruct (M a Ia)|cbn; auto|cbn; auto].
Qed.
