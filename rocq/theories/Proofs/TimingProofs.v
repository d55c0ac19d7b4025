(** Proofs about the scripts that watch the callbacks. *)
From Verif Require Import Base.Prelude Base.Decimal Model.Osm Model.Handler Model.Osmjs Model.Timing
  Spec.OsmSpec Spec.HandlerSpec Spec.OsmjsSpec Spec.ScriptsSpec Spec.TimingSpec Proofs.OsmjsProofs Proofs.Osmjs2Proofs.
Local Open Scope Z_scope.

Lemma final_snoc {S F} (func : string -> S -> option F) invoke s cs c :
  final_state func invoke s (cs ++ [c]) =
  match js_name c with
  | Some (n, t) => match func n s with Some f => fst (invoke f t (final_state func invoke s cs)) | None => final_state func invoke s cs end
  | None => final_state func invoke s cs
  end.
Proof.
  unfold final_state, js_calls, choose, play. rewrite flat_map_app, fold_left_app. cbn [flat_map]. rewrite app_nil_r.
  destruct (js_name c) as [[n t]|]; [|reflexivity]. destruct (func n s); reflexivity.
Qed.
Lemma objects_app a b : objects_in (a ++ b) = objects_in a ++ objects_in b.
Proof. apply flat_map_app. Qed.
Lemma objects_bracket g : objects_in (bracket g) = snd g.
Proof.
  unfold bracket. change (CBefore (fst g) :: map CObj (snd g) ++ [CAfter (fst g)]) with ([CBefore (fst g)] ++ map CObj (snd g) ++ [CAfter (fst g)]).
  rewrite !objects_app. cbn [objects_in flat_map app]. rewrite app_nil_r. induction (snd g) as [|o l IH]; [reflexivity|]. cbn. f_equal. exact IH.
Qed.
Lemma join_objects gs : flat_map snd (join gs) = flat_map snd gs.
Proof.
  induction gs as [|[t os] gs IH]; [reflexivity|]. cbn [join flat_map snd]. rewrite <- IH. destruct (join gs) as [|[t' os'] r]; [reflexivity|].
  destruct (otype_eqb t t'); cbn [flat_map snd]; [rewrite app_assoc|]; reflexivity.
Qed.
Lemma protocol_objects gs : objects_in (protocol gs) = flat_map snd gs.
Proof.
  unfold protocol. change (objects_in (CInit :: flat_map bracket (join gs))) with (objects_in (flat_map bracket (join gs))). rewrite <- join_objects.
  induction (join gs) as [|g l IH]; [reflexivity|]. cbn [flat_map]. rewrite objects_app, objects_bracket, IH. reflexivity.
Qed.

(* ---- time.js ---- *)
Definition first_words (os : list object) : list string :=
  flat_map (fun o => match o with ONode _ => [] | OWay _ => ["first way"] | ORel _ => ["first relation"] end%string) os.
Definition number (t : otype) (os : list object) : Z := Z.min (Z.of_nat (List.length (filter (fun o => otype_eqb (obj_type o) t) os))) 9007199254740992.
Lemma distinct_snoc {A} (eq : forall x y : A, {x = y} + {x <> y}) l x :
  distinct eq (l ++ [x]) = if in_dec eq x (distinct eq l) then distinct eq l else distinct eq l ++ [x].
Proof. unfold distinct. rewrite fold_left_app. reflexivity. Qed.
Lemma in_distinct {A} (eq : forall x y : A, {x = y} + {x <> y}) l x : In x (distinct eq l) <-> In x l.
Proof.
  induction l as [|y l IH] using rev_ind; [reflexivity|]. rewrite distinct_snoc, in_app_iff, <- IH. cbn [In].
  destruct (in_dec eq y (distinct eq l)) as [I|I]; [|rewrite in_app_iff; cbn [In]; tauto].
  split; [auto|]. intros [H|[<-|[]]]; auto.
Qed.
Lemma number_snoc t os o : number t (os ++ [o]) = if otype_eqb (obj_type o) t then tm_incr (number t os) else number t os.
Proof.
  unfold number, tm_incr. rewrite filter_app, app_length. cbn [filter]. destruct (otype_eqb (obj_type o) t); cbn [List.length].
  - match goal with |- context [if ?a <? ?b then _ else _] => destruct (Z.ltb_spec a b) end; lia.
  - rewrite Nat.add_0_r. reflexivity.
Qed.
Lemma number_zero t os : (number t os =? 0) = true <-> forall o, In o os -> obj_type o <> t.
Proof.
  unfold number. rewrite Z.eqb_eq. split.
  - intros H o I E. assert (L : List.length (filter (fun o => otype_eqb (obj_type o) t) os) = 0%nat) by lia.
    apply length_zero_iff_nil in L. assert (X : In o (filter (fun o => otype_eqb (obj_type o) t) os)) by (apply filter_In; split; [exact I|subst t; destruct (obj_type o); reflexivity]).
    rewrite L in X. exact X.
  - intros H. replace (filter (fun o => otype_eqb (obj_type o) t) os) with (@nil object); [reflexivity|]. symmetry.
    induction os as [|o os IH]; [reflexivity|]. cbn [filter]. destruct (otype_eqb (obj_type o) t) eqn:E.
    + destruct (H o (or_introl eq_refl)). destruct (obj_type o), t; try discriminate E; reflexivity.
    + apply IH. intros x I. apply H. right. exact I.
Qed.
Lemma way_word os : In "first way"%string (first_words os) <-> exists w, In (OWay w) os.
Proof.
  unfold first_words. rewrite in_flat_map. split.
  - intros (o & I & J). destruct o as [n|w|r]; cbn in J; [destruct J| |destruct J as [J|[]]; discriminate J]. exists w. exact I.
  - intros (w & I). exists (OWay w). split; [exact I|left; reflexivity].
Qed.
Lemma rel_word os : In "first relation"%string (first_words os) <-> exists r, In (ORel r) os.
Proof.
  unfold first_words. rewrite in_flat_map. split.
  - intros (o & I & J). destruct o as [n|w|r]; cbn in J; [destruct J|destruct J as [J|[]]; discriminate J|]. exists r. exact I.
  - intros (w & I). exists (ORel w). split; [exact I|left; reflexivity].
Qed.
Lemma time_state cs : ~ In CFinal cs ->
  final_state tm_func tm_invoke tm_new cs =
  mkTm (number NODE (objects_in cs)) (number WAY (objects_in cs)) (number RELATION (objects_in cs)) (distinct string_dec (first_words (objects_in cs))).
Proof.
  induction cs as [|c cs IH] using rev_ind; intros N; [reflexivity|].
  specialize (IH ltac:(intros I; apply N; apply in_or_app; auto)). rewrite final_snoc, objects_app.
  destruct c as [|t|o|t|a|]; try (destruct t);
    try (cbn [js_name]; match goal with |- context [tm_func ?n tm_new] => let x := eval vm_compute in (tm_func n tm_new) in change (tm_func n tm_new) with x end; cbv iota;
         rewrite IH; change (objects_in [_]) with (@nil object); rewrite app_nil_r; reflexivity);
    try (cbn [js_name]; rewrite IH; change (objects_in [_]) with (@nil object); rewrite app_nil_r; reflexivity).
  - change (objects_in [CObj o]) with [o]. rewrite !number_snoc. unfold first_words at 1. rewrite flat_map_app. fold (first_words (objects_in cs)). cbn [flat_map].
    destruct o as [n|w|r]; cbn [js_name obj_type otype_eqb app].
    + change (tm_func "node" tm_new) with (Some "node"%string). cbv iota. rewrite IH, app_nil_r. reflexivity.
    + change (tm_func "way" tm_new) with (Some "way"%string). cbv iota. rewrite IH. unfold tm_invoke.
      change (String.eqb "way" "node") with false. change (String.eqb "way" "way") with true. cbn [fst tm_ways tm_nodes tm_rels tm_out]. cbv iota. f_equal.
      rewrite distinct_snoc. destruct (in_dec string_dec "first way"%string (distinct string_dec (first_words (objects_in cs)))) as [I|I]; rewrite in_distinct, way_word in I;
      destruct (number WAY (objects_in cs) =? 0) eqn:Z0; try reflexivity; exfalso.
      * destruct I as (x & I). apply number_zero with (o := OWay x) in Z0; [apply Z0; reflexivity|exact I].
      * apply Bool.not_true_iff_false in Z0. apply Z0. apply number_zero. intros o J E. destruct o as [?|x|?]; try discriminate E. apply I. exists x. exact J.
    + change (tm_func "relation" tm_new) with (Some "relation"%string). cbv iota. rewrite IH. unfold tm_invoke.
      change (String.eqb "relation" "node") with false. change (String.eqb "relation" "way") with false. change (String.eqb "relation" "relation") with true. cbn [fst tm_ways tm_nodes tm_rels tm_out]. cbv iota. f_equal.
      rewrite distinct_snoc. destruct (in_dec string_dec "first relation"%string (distinct string_dec (first_words (objects_in cs)))) as [I|I]; rewrite in_distinct, rel_word in I;
      destruct (number RELATION (objects_in cs) =? 0) eqn:Z0; try reflexivity; exfalso.
      * destruct I as (x & I). apply number_zero with (o := ORel x) in Z0; [apply Z0; reflexivity|exact I].
      * apply Bool.not_true_iff_false in Z0. apply Z0. apply number_zero. intros o J E. destruct o as [?|?|x]; try discriminate E. apply I. exists x. exact J.
  - destruct N. apply in_or_app. right. left. reflexivity.
Qed.
Lemma time_ok cs : ~ In CFinal cs -> tm_out (final_state tm_func tm_invoke tm_new (cs ++ [CFinal])) = time_lines (objects_in cs).
Proof. intros N. rewrite final_snoc. cbn [js_name]. change (tm_func "end" tm_new) with (Some "end"%string). cbv iota. rewrite (time_state cs N). reflexivity. Qed.
Lemma protocol_not_final gs : ~ In CFinal (protocol gs).
Proof.
  unfold protocol. intros [H|H]; [discriminate H|]. apply in_flat_map in H as (g & _ & H). unfold bracket in H. destruct H as [H|H]; [discriminate H|].
  apply in_app_or in H as [H|[H|[]]]; [|discriminate H]. apply in_map_iff in H as (o & H & _). discriminate H.
Qed.
Lemma time_run : forall (P N : Type) load boot eval pset pget nset nget store store_neg build srt contents cfg file args cb gs,
  js_new load boot eval tm_func args (c_includes cfg) (c_js cfg) = Go (cb, tm_new) -> c_two cfg = false -> c_store cfg = LNone ->
  contents 0%nat file = (gs, None) -> gs <> [] -> (forall g, In g gs -> well_typed g) ->
  exists e, @passes tms string load boot eval tm_func tm_invoke P N pset pget nset nget store store_neg build srt contents cfg file args = Go e /\
    e_halt e = None /\ tm_out (e_state e) = time_lines (flat_map snd gs).
Proof.
  intros P N load boot eval pset pget nset nget store store_neg build srt contents cfg file args cb gs J T C R Ne W.
  eexists. split; [eapply plain_thm; eassumption|]. split; [reflexivity|]. cbn [e_state]. rewrite time_ok by apply protocol_not_final. rewrite protocol_objects. reflexivity.
Qed.

(* ---- callback_test.js ---- *)
Definition seen (p : list callback) (l : list string) : bool := existsb (fun c => if list_eq_dec string_dec (callback_line c) l then true else false) p.
Lemma seen_spec p l : seen p l = true <-> exists c, In c p /\ callback_line c = l.
Proof.
  unfold seen. rewrite existsb_exists. split; intros (c & I & H); exists c; (split; [exact I|]); destruct (list_eq_dec string_dec (callback_line c) l); try discriminate H; auto; contradiction.
Qed.
Lemma seen_snoc p c l : seen (p ++ [c]) l = seen p l || if list_eq_dec string_dec (callback_line c) l then true else false.
Proof. unfold seen. rewrite existsb_app. cbn [existsb]. rewrite Bool.orb_false_r. reflexivity. Qed.
Definition out_of (p : list callback) (c : callback) : list string :=
  match c with CObj _ | CArea _ => if seen p (callback_line c) then [] else callback_line c | _ => callback_line c end.
Lemma out_announced p c : announced p c (out_of p c).
Proof.
  unfold announced, out_of. destruct c as [|t|o|t|a|]; cbn [only_once]; (split; [|split]); try tauto;
    intros _ H; destruct (seen p _) eqn:X; try reflexivity.
  - apply Bool.not_true_iff_false in X. destruct X. apply seen_spec. exact H.
  - apply seen_spec in X as (c & I & E). destruct (H c I E).
  - apply Bool.not_true_iff_false in X. destruct X. apply seen_spec. exact H.
  - apply seen_spec in X as (c & I & E). destruct (H c I E).
Qed.
Lemma test_state cs : exists outs, List.length outs = List.length cs /\
  final_state ct_func ct_invoke ct_new cs = mkCt (seen cs ["✔ node"%string]) (seen cs ["✔ way"%string]) (seen cs ["✔ relation"%string]) (seen cs ["✔ area"%string]) (List.concat outs) /\
  forall p c q, cs = p ++ c :: q -> nth (List.length p) outs [] = out_of p c.
Proof.
  induction cs as [|c cs IH] using rev_ind.
  - exists []. split; [reflexivity|]. split; [reflexivity|]. intros p c q E. destruct p; discriminate E.
  - destruct IH as (outs & L & S & H). exists (outs ++ [out_of cs c]). split; [rewrite !app_length, L; reflexivity|]. split.
    + rewrite final_snoc, !seen_snoc, List.concat_app. cbn [List.concat]. rewrite app_nil_r, S. clear.
      destruct c as [|t|o|t|a|]; try destruct t; try destruct o as [n|w|r]; cbn [js_name obj_type];
        try (match goal with |- context [ct_func ?n ct_new] => let x := eval vm_compute in (ct_func n ct_new) in change (ct_func n ct_new) with x end; cbv iota);
        cbv beta iota zeta delta [out_of callback_line ct_invoke ct_print fst ct_node ct_way ct_rel ct_area ct_out];
        repeat match goal with |- context [String.eqb ?a ?b] => let x := eval vm_compute in (String.eqb a b) in change (String.eqb a b) with x end; cbv iota;
        repeat match goal with |- context [list_eq_dec string_dec ?a ?b] => destruct (list_eq_dec string_dec a b) as [X|X]; [try discriminate X|try (destruct X; reflexivity)]; clear X end;
        rewrite ?Bool.orb_false_r, ?Bool.orb_true_r, ?app_nil_r; try reflexivity;
        match goal with |- context [seen cs ?l] => idtac end;
        try (match goal with |- context [if seen cs ?l then [] else _] => destruct (seen cs l) end; rewrite ?app_nil_r; reflexivity).
    + intros p c' q E. destruct (list_eq_dec Nat.eq_dec [List.length p] [List.length cs]) as [Q|Q].
      * injection Q as Q. assert (X : p = cs /\ c' = c).
        { assert (q = []) as ->. { apply (f_equal (@List.length _)) in E. rewrite !app_length in E. cbn [List.length] in E. destruct q; [reflexivity|cbn [List.length] in E; lia]. }
          apply app_inj_tail in E. destruct E; subst; auto. }
        destruct X as [-> ->]. rewrite app_nth2 by lia. rewrite L, Nat.sub_diag. reflexivity.
      * destruct q as [|x q] using rev_ind.
        { apply app_inj_tail in E. destruct E as [-> _]. destruct Q. reflexivity. }
        rewrite app_comm_cons, app_assoc in E. apply app_inj_tail in E. destruct E as [E _].
        rewrite app_nth1; [exact (H p c' q E)|]. rewrite L, E, app_length. cbn [List.length]. lia.
Qed.
Lemma test_ok cs : exists outs, ct_out (final_state ct_func ct_invoke ct_new cs) = List.concat outs /\ List.length outs = List.length cs /\
  forall p c q, cs = p ++ c :: q -> announced p c (nth (List.length p) outs []).
Proof.
  destruct (test_state cs) as (outs & L & S & H). exists outs. rewrite S. split; [reflexivity|]. split; [exact L|]. intros p c q E. rewrite (H p c q E). apply out_announced.
Qed.

Lemma play_app {S F} (func : string -> S -> option F) invoke s a b :
  final_state func invoke s (a ++ b) = play invoke (js_calls (fun n => func n s) b) (final_state func invoke s a).
Proof. unfold final_state, js_calls, choose, play. rewrite flat_map_app, fold_left_app. reflexivity. Qed.
Lemma more_same (f : string) (l : list this) s : fst (ct_invoke f OnFunction s) = s -> (forall t u x, ct_invoke f t x = ct_invoke f u x) ->
  play ct_invoke (map (fun t => (f, t)) l) s = s.
Proof. intros E A. induction l as [|t l IH]; [reflexivity|]. unfold play in *. cbn [map fold_left fst snd]. rewrite (A t OnFunction), E. exact IH. Qed.
Lemma typed_run (name : string) t os s : Forall (fun o => obj_type o = t) os -> (t = NODE /\ name = "node" \/ t = WAY /\ name = "way" \/ t = RELATION /\ name = "relation")%string ->
  os <> [] -> play ct_invoke (js_calls (fun n => ct_func n ct_new) (map CObj os)) s = fst (ct_invoke name OnFunction s).
Proof.
  intros T N Ne.
  assert (A : forall t u x, ct_invoke name t x = ct_invoke name u x) by reflexivity.
  assert (M : js_calls (fun n => ct_func n ct_new) (map CObj os) = map (fun o => (name, OnObject o)) os).
  { clear Ne. induction T as [|o os E T IH]; [reflexivity|]. unfold js_calls, choose in *. cbn [map flat_map]. rewrite IH. cbn [js_name]. rewrite E.
    destruct N as [[-> ->]|[[-> ->]|[-> ->]]]; reflexivity. }
  rewrite M. destruct os as [|o os]; [contradiction|]. cbn [map]. unfold play. cbn [fold_left fst snd]. rewrite (A _ OnFunction).
  change (fold_left _ (map (fun o => (name, OnObject o)) os) ?x) with (play ct_invoke (map (fun o => (name, OnObject o)) os) x).
  replace (map (fun o => (name, OnObject o)) os) with (map (fun t => (name, t)) (map OnObject os)) by (rewrite map_map; reflexivity).
  apply more_same; [|exact A]. clear - N. destruct s as [a b c d out].
  destruct N as [[_ ->]|[[_ ->]|[_ ->]]]; destruct a, b, c; reflexivity.
Qed.
Lemma test_run : forall gs ns ws rs, join gs = [(NODE, ns); (WAY, ws); (RELATION, rs)] -> (forall g, In g (join gs) -> well_typed g /\ snd g <> []) ->
  ct_out (final_state ct_func ct_invoke ct_new (protocol gs ++ [CFinal])) =
  ["✔ init"; "✔ before_nodes"; "✔ node"; "✔ after_nodes"; "✔ before_ways"; "✔ way"; "✔ after_ways"; "✔ before_relations"; "✔ relation"; "✔ after_relations"; "✔ end"]%string.
Proof.
  intros gs ns ws rs J W. unfold protocol. rewrite J in *. cbn [flat_map bracket fst snd app].
  assert (T : forall t os, In (t, os) [(NODE, ns); (WAY, ws); (RELATION, rs)] -> Forall (fun o => obj_type o = t) os /\ os <> []).
  { intros t os I. destruct (W _ I) as [A B]. split; [|exact B]. apply Forall_forall. intros o H. exact (proj2 A o H). }
  destruct (T NODE ns) as [N1 N2]; [cbn; auto|]. destruct (T WAY ws) as [W1 W2]; [cbn; auto|]. destruct (T RELATION rs) as [R1 R2]; [cbn; auto|].
  rewrite app_nil_r. repeat (rewrite <- !app_assoc; cbn [app]).
  change (CInit :: CBefore NODE :: ?x) with ([CInit; CBefore NODE] ++ x).
  rewrite play_app.
  assert (Q : forall l os s, play ct_invoke (js_calls (fun n => ct_func n ct_new) (l ++ os)) s = play ct_invoke (js_calls (fun n => ct_func n ct_new) os) (play ct_invoke (js_calls (fun n => ct_func n ct_new) l) s)).
  { intros. unfold js_calls, choose, play. rewrite flat_map_app, fold_left_app. reflexivity. }
  rewrite (Q (map CObj ns)), (typed_run "node" NODE ns) by auto.
  change (CAfter NODE :: CBefore WAY :: map CObj ws ++ ?x) with ([CAfter NODE; CBefore WAY] ++ map CObj ws ++ x). rewrite (Q [CAfter NODE; CBefore WAY]), (Q (map CObj ws)), (typed_run "way" WAY ws) by auto.
  change (CAfter WAY :: CBefore RELATION :: map CObj rs ++ ?x) with ([CAfter WAY; CBefore RELATION] ++ map CObj rs ++ x). rewrite (Q [CAfter WAY; CBefore RELATION]), (Q (map CObj rs)), (typed_run "relation" RELATION rs) by auto.
  reflexivity.
Qed.

(* ---- with a location store ---- *)
Lemma located_final {S F} (func : string -> S -> option F) (invoke : F -> this -> S -> S * bool) s dflt :
  (forall f t u x, invoke f t x = invoke f u x) -> forall cs seen x,
  play invoke (js_calls (fun n => func n s) (located_calls dflt seen cs)) x = play invoke (js_calls (fun n => func n s) cs) x.
Proof.
  intros A. induction cs as [|c cs IH]; intros seen x; [reflexivity|].
  assert (D : forall c r y, play invoke (js_calls (fun n => func n s) (c :: r)) y =
    play invoke (js_calls (fun n => func n s) r) (match js_name c with Some (n, t) => match func n s with Some f => fst (invoke f t y) | None => y end | None => y end)).
  { intros c' r y. unfold js_calls, choose, play. cbn [flat_map]. rewrite fold_left_app.
    destruct (js_name c') as [[n t]|]; [|reflexivity]. destruct (func n s); reflexivity. }
  destruct c as [|t|o|t|a|]; cbn [located_calls]; rewrite !D, IH; try reflexivity.
  f_equal. destruct o as [n|w|r]; cbn [locate js_name obj_type]; [reflexivity| |reflexivity].
  match goal with |- context [func ?n s] => destruct (func n s) as [f|]; [|reflexivity] end. f_equal. apply A.
Qed.
Lemma located_runs : forall (P N : Type) pset pget nset nget store store_neg build srt contents dflt domp domn,
  store_works nset nget store_neg dflt domn -> forall cfg, c_two cfg = false -> c_store cfg <> LNone -> store_works pset pget (store (c_store cfg)) dflt domp ->
  forall file gs, contents 0%nat file = (gs, None) -> gs <> [] -> (forall g, In g gs -> well_typed g) ->
  (forall o id, In o (flat_map snd gs) -> In id (used_ids o) -> id_ok domp domn id) -> forall args cb,
  (forall load boot eval, js_new load boot eval tm_func args (c_includes cfg) (c_js cfg) = Go (cb, tm_new) ->
    exists e, @passes tms string load boot eval tm_func tm_invoke P N pset pget nset nget store store_neg build srt contents cfg file args = Go e /\
      e_halt e = None /\ tm_out (e_state e) = time_lines (flat_map snd gs)) /\
  (forall load boot eval ns ws rs, js_new load boot eval ct_func args (c_includes cfg) (c_js cfg) = Go (cb, ct_new) ->
    join gs = [(NODE, ns); (WAY, ws); (RELATION, rs)] -> ns <> [] -> ws <> [] -> rs <> [] ->
    exists e, @passes cts string load boot eval ct_func ct_invoke P N pset pget nset nget store store_neg build srt contents cfg file args = Go e /\
      e_halt e = None /\ ct_out (e_state e) =
      ["✔ init"; "✔ before_nodes"; "✔ node"; "✔ after_nodes"; "✔ before_ways"; "✔ way"; "✔ after_ways"; "✔ before_relations"; "✔ relation"; "✔ after_relations"; "✔ end"]%string).
Proof.
  intros P N pset pget nset nget store store_neg build srt contents dflt domp domn SN cfg C2 CS SP file gs R Ne W U args cb. split.
  - intros load boot eval J. eexists. split; [eapply located_thm; eassumption|]. split; [reflexivity|]. cbn [e_state]. unfold final_state. rewrite located_final by reflexivity.
    change (play tm_invoke (js_calls (fun n => tm_func n tm_new) ?l) tm_new) with (final_state tm_func tm_invoke tm_new l).
    rewrite time_ok by apply protocol_not_final. rewrite protocol_objects. reflexivity.
  - intros load boot eval ns ws rs J E N1 N2 N3. eexists. split; [eapply located_thm; eassumption|]. split; [reflexivity|]. cbn [e_state]. unfold final_state. rewrite located_final by reflexivity.
    eapply test_run; [exact E|]. intros g I. split; [eapply HandlerProofs.join_well_typed; eassumption|]. rewrite E in I. destruct I as [<-|[<-|[<-|[]]]]; assumption.
Qed.
