(** The relation assembler over whole files (C28, C29) and the multipolygon assembler (C30). *)
From Verif Require Import Base.Prelude Model.Osm Model.Handler Model.Assembler
  Spec.HandlerSpec Spec.AssemblerSpec Proofs.HandlerProofs Proofs.Handler2Proofs
  Proofs.AssemblerProofs Proofs.Assembler2Proofs Proofs.Assembler3Proofs.

Section W.
  Variable keep : relation -> member -> bool.
  Variable want : otype -> bool.
  Variable sel : list relation.

  Lemma complete_mono r a b : complete_with keep a r -> complete_with keep (a ++ b) r.
  Proof.
    intros [H1 H2]. split; auto. intros m Hm K. destruct (H2 m Hm K) as (o & Ho & N). exists o. split; auto. apply in_or_app; auto.
  Qed.
  Lemma find_app_some {A} (p : A -> bool) a b x : find p a = Some x -> find p (a ++ b) = Some x.
  Proof. induction a as [|y a IH]; cbn; [discriminate|]. destruct (p y); auto. Qed.
  Lemma slots_mono r a b : complete_with keep a r -> slots keep (a ++ b) r = slots keep a r.
  Proof.
    intros [_ H]. unfold slots. apply map_ext_in. intros m Hm. destruct (keep r m) eqn:K; auto.
    destruct (find (names m) a) as [o|] eqn:E; [now apply find_app_some|].
    destruct (H m Hm K) as (o & Ho & N). apply (find_none _ _ E) in Ho. congruence.
  Qed.
  Lemma complete_dec r os : {complete_with keep os r} + {~ complete_with keep os r}.
  Proof.
    pose proof (full_arr keep [r] os 0 r eq_refl) as F.
    destruct (full keep r (arr keep [r] os 0)); [left; now apply F|right]. intros C. apply F in C. discriminate.
  Qed.

  Lemma events_complete p c e j r ms : events_at keep want sel p c e ->
    (In (EComplete j r ms) e <-> exists o, c = CObj o /\ nth_error sel j = Some r /\
      complete_with keep (arrived want (p ++ [c])) r /\ ~ complete_with keep (arrived want p) r /\
      ms = slots keep (arrived want (p ++ [c])) r).
  Proof.
    intros H. destruct c; cbn [events_at] in H.
    - subst e. split; [intros [C|[]]; discriminate|intros (? & ? & _); discriminate].
    - subst e. split; [intros [C|[]]; discriminate|intros (? & ? & _); discriminate].
    - destruct (want (obj_type o)) eqn:W.
      + destruct H as (es & [_ H] & ->). rewrite in_app_iff, H. split.
        * intros [(j' & r' & H1 & H2 & H3 & H4)|C].
          -- injection H4 as <- <- ->. exists o. auto.
          -- exfalso. apply in_app_or in C as [C|[C|[]]]; [|discriminate]. destruct (is_member keep sel o); [destruct C|destruct C as [C|[]]; discriminate].
        * intros (o' & E & H1 & H2 & H3 & ->). injection E as <-. left. exists j, r. auto.
      + subst e. split; [intros [C|[]]; discriminate|]. intros (o' & E & _ & H1 & H2 & _). injection E as <-.
        exfalso. apply H2. rewrite arrived_snoc, W, app_nil_r in H1. auto.
    - split; [|intros (? & ? & _); discriminate]. intros C. exfalso. destruct (want t).
      + destruct H as [[_ ->]|[_ ->]]; cbn in C; intuition discriminate.
      + subst e. cbn in C. intuition discriminate.
    - subst e. split; [intros [C|[]]; discriminate|intros (? & ? & _); discriminate].
    - subst e. split; [intros [C|[]]; discriminate|intros (? & ? & _); discriminate].
  Qed.
  Lemma events_nodup p c e j r ms l1 l2 : events_at keep want sel p c e -> e = l1 ++ EComplete j r ms :: l2 ->
    (forall x, In x (l1 ++ l2) -> ~ completes j x).
  Proof.
    intros H E x Hx (r' & ms' & ->).
    assert (Hin : In (EComplete j r ms) e) by (rewrite E; apply in_or_app; right; left; auto).
    assert (Hin' : In (EComplete j r' ms') e) by (rewrite E; apply in_app_or in Hx as [Hx|Hx]; apply in_or_app; [left|right; right]; auto).
    apply (events_complete _ _ _ _ _ _ H) in Hin as (o & -> & A1 & A2 & A3 & A4).
    apply (events_complete _ _ _ _ _ _ H) in Hin' as (o' & _ & B1 & B2 & B3 & B4).
    rewrite A1 in B1. injection B1 as <-. rewrite <- A4 in B4. subst ms'.
    cbn [events_at] in H. destruct (want (obj_type o)).
    - destruct H as (es & [N H] & E'). rewrite E in E'.
      assert (NN : NoDup (l1 ++ EComplete j r ms :: l2)).
      { rewrite E'. apply nodup_app; auto.
        - destruct (is_member keep sel o); repeat constructor; cbn; intuition discriminate.
        - intros y Hy Hy'. apply H in Hy as (? & ? & _ & _ & _ & ->). apply in_app_or in Hy' as [C|[C|[]]]; [|discriminate].
          destruct (is_member keep sel o); [destruct C|destruct C as [C|[]]; discriminate]. }
      apply NoDup_remove_2 in NN. tauto.
    - subst e. destruct l1 as [|? [|]]; discriminate.
  Qed.

  Lemma whole_file : forall cs p es, List.length es = List.length cs ->
    (forall p' c q, cs = p' ++ c :: q -> events_at keep want sel (p ++ p') c (nth (List.length p') es [])) ->
    (forall j r ms, In (EComplete j r ms) (List.concat es) ->
       nth_error sel j = Some r /\ complete_with keep (arrived want (p ++ cs)) r /\ ~ complete_with keep (arrived want p) r /\
       ms = slots keep (arrived want (p ++ cs)) r) /\
    (forall j r, nth_error sel j = Some r -> complete_with keep (arrived want (p ++ cs)) r -> ~ complete_with keep (arrived want p) r ->
       exists e1 ms e2, List.concat es = e1 ++ EComplete j r ms :: e2 /\ forall x, In x (e1 ++ e2) -> ~ completes j x).
  Proof.
    induction cs as [|c cs IH]; intros p es L H.
    - destruct es; [|discriminate]. split; [intros ? ? ? []|]. rewrite app_nil_r. tauto.
    - destruct es as [|e es]; [discriminate|]. cbn [List.length] in L. injection L as L.
      pose proof (H [] c cs eq_refl) as H0. cbn in H0. rewrite app_nil_r in H0.
      destruct (IH (p ++ [c]) es L) as [I1 I2].
      { intros p' c' q E. specialize (H (c :: p') c' q). rewrite E in H. specialize (H eq_refl). rewrite <- app_assoc. exact H. }
      rewrite <- app_assoc in I1, I2. cbn [app] in I1, I2. cbn [List.concat].
      assert (AP : forall x, arrived want (p ++ c :: x) = arrived want (p ++ [c]) ++ arrived want x).
      { intros x. rewrite <- arrived_app, <- app_assoc. reflexivity. }
      split.
      + intros j r ms Hin. apply in_app_or in Hin as [Hin|Hin].
        * apply (events_complete _ _ _ _ _ _ H0) in Hin as (o & -> & A1 & A2 & A3 & ->). split; auto. rewrite AP.
          split; [now apply complete_mono|]. split; auto. symmetry. now apply slots_mono.
        * apply I1 in Hin as (A1 & A2 & A3 & A4). split; auto. split; auto. split; auto.
          intros C. apply A3. rewrite arrived_app. now apply complete_mono.
      + intros j r Hj C1 C0. destruct (complete_dec r (arrived want (p ++ [c]))) as [D|D].
        * assert (Hc : exists o, c = CObj o).
          { rewrite arrived_snoc in D. destruct c; eauto; rewrite app_nil_r in D; tauto. }
          destruct Hc as (o & ->).
          assert (Hin : In (EComplete j r (slots keep (arrived want (p ++ [CObj o])) r)) e)
            by (apply (events_complete _ _ _ _ _ _ H0); eauto 7).
          apply in_split in Hin as (l1 & l2 & E). exists l1, (slots keep (arrived want (p ++ [CObj o])) r), (l2 ++ List.concat es).
          split; [rewrite E, <- app_assoc; reflexivity|]. intros x Hx. rewrite app_assoc in Hx. apply in_app_or in Hx as [Hx|Hx].
          -- eapply events_nodup; eauto.
          -- intros (r' & ms' & ->). apply I1 in Hx as (A1 & A2 & A3 & A4). rewrite Hj in A1. injection A1 as <-. tauto.
        * destruct (I2 j r Hj C1 D) as (e1 & ms & e2 & E & N). exists (e ++ e1), ms, e2. rewrite E, app_assoc. split; auto.
          intros x Hx. rewrite <- app_assoc in Hx. apply in_app_or in Hx as [Hx|Hx]; auto.
          intros (r' & ms' & ->). apply (events_complete _ _ _ _ _ _ H0) in Hx as (o & -> & A1 & A2 & A3 & A4).
          rewrite Hj in A1. injection A1 as <-. tauto.
  Qed.
End W.

Lemma arrived_file want runs : arrived want (file_calls runs) = wanted want (flat_map snd runs).
Proof.
  unfold file_calls. change (CInit :: flat_map bracket runs ++ [CFinal]) with ([CInit] ++ flat_map bracket runs ++ [CFinal]).
  rewrite !arrived_app. cbn [arrived flat_map app]. rewrite app_nil_r.
  induction runs as [|[t os] runs IH]; [reflexivity|]. cbn [flat_map]. rewrite arrived_app. unfold wanted in *. rewrite filter_app.
  rewrite IH. f_equal. unfold bracket. cbn [fst snd].
  change (CBefore t :: map CObj os ++ [CAfter t]) with ([CBefore t] ++ map CObj os ++ [CAfter t]).
  rewrite !arrived_app, arrived_objs. cbn. now rewrite app_nil_r.
Qed.

Theorem completed_once : forall select keep want srt gs runs,
  sorts srt -> (forall g, In g gs -> well_typed g) -> sorted_file runs ->
  let a := r_handler (fst (parse (pass1 select keep srt) gs None (asm_new want))) in
  let rs := filter select (first_relations gs) in
  exists a' es, pass2_all want (file_calls runs) a = Ok (a', es) /\
    (forall j r, nth_error rs j = Some r -> complete_with keep (wanted want (flat_map snd runs)) r ->
       exists e1 ms e2, List.concat es = e1 ++ EComplete j r ms :: e2 /\ forall x, In x (e1 ++ e2) -> ~ completes j x) /\
    (forall j r ms, In (EComplete j r ms) (List.concat es) ->
       nth_error rs j = Some r /\ complete_with keep (wanted want (flat_map snd runs)) r).
Proof.
  intros select keep want srt gs runs SR W SF a rs.
  destruct (assembler_correct select keep want srt gs runs SR W SF) as (a' & es & E1 & E2 & E3). fold a rs in E1, E3.
  exists a', es. split; auto. destruct (whole_file keep want rs (file_calls runs) [] es E2) as [F1 F2].
  { intros. now apply E3 with q. }
  cbn [app] in F1, F2. rewrite arrived_file in F1, F2.
  assert (N : forall r, ~ complete_with keep (arrived want []) r).
  { intros r [(m & H1 & H2) H]. destruct (H m H1 H2) as (o & [] & _). }
  split.
  - intros j r Hj C. apply F2; auto.
  - intros j r ms H. apply F1 in H. tauto.
Qed.

Theorem member_slots : forall select keep want srt gs runs,
  sorts srt -> (forall g, In g gs -> well_typed g) -> sorted_file runs ->
  let a := r_handler (fst (parse (pass1 select keep srt) gs None (asm_new want))) in
  forall a' es, pass2_all want (file_calls runs) a = Ok (a', es) ->
  forall j r ms, In (EComplete j r ms) (List.concat es) ->
    List.length ms = List.length (r_members r) /\
    forall i m, nth_error (r_members r) i = Some m ->
      (keep r m = true -> exists o, nth_error ms i = Some (Some o) /\ right_object m o /\ In o (flat_map snd runs)) /\
      (keep r m = false -> nth_error ms i = Some None).
Proof.
  intros select keep want srt gs runs SR W SF a a' es E0 j r ms H.
  destruct (assembler_correct select keep want srt gs runs SR W SF) as (a2 & es2 & E1 & E2 & E3). fold a in E1. rewrite E0 in E1. injection E1 as <- <-.
  destruct (whole_file keep want (filter select (first_relations gs)) (file_calls runs) [] es E2) as [F1 _].
  { intros. now apply E3 with q. }
  apply F1 in H as (_ & [_ C] & _ & ->). cbn [app] in *. rewrite arrived_file in *. unfold slots. split; [now rewrite map_length|].
  intros i m Hm. rewrite nth_error_map, Hm. cbn [option_map]. split; intros K; rewrite K; auto.
  destruct (C m (nth_error_In _ _ Hm) K) as (o & Ho & N).
  destruct (find (names m) (wanted want (flat_map snd runs))) as [o'|] eqn:F.
  - apply find_some in F as [F3 F4]. exists o'. split; auto. split.
    + unfold names in F4. unfold right_object. destruct (letter (obj_type o')); [|discriminate].
      apply andb_true_iff in F4 as [F4 F5]. apply Ascii.eqb_eq in F4. apply Z.eqb_eq in F5. split; congruence.
    + apply filter_In in F3. tauto.
  - apply (find_none _ _ F) in Ho. congruence.
Qed.

(* ---- C30 ---- *)
Lemma first_type_tag ts : match get_value_by_key ts "type" with
  | Some v => exists l1 t l2, ts = l1 ++ t :: l2 /\ tkey t = "type"%string /\ tvalue t = v /\ forall x, In x l1 -> tkey x <> "type"%string
  | None => forall x, In x ts -> tkey x <> "type"%string
  end.
Proof.
  induction ts as [|t ts IH]; [intros ? []|]. cbn [get_value_by_key]. destruct (String.eqb_spec (tkey t) "type") as [E|E].
  - exists [], t, ts. split; [reflexivity|]. split; [exact E|]. split; [reflexivity|intros ? []].
  - destruct (get_value_by_key ts "type").
    + destruct IH as (l1 & t' & l2 & -> & A & B & C). exists (t :: l1), t', l2. split; [reflexivity|]. split; auto. split; auto.
      intros x [<-|Hx]; auto.
    + intros x [<-|Hx]; auto.
Qed.
Lemma mp_select_spec r : mp_select r = true <-> is_multipolygon r.
Proof.
  unfold mp_select, is_multipolygon. pose proof (first_type_tag (o_tags (r_attrs r))) as F.
  destruct (get_value_by_key (o_tags (r_attrs r)) "type") as [v|].
  - destruct F as (l1 & t & l2 & E & A & B & C). rewrite orb_true_iff, !String.eqb_eq. split.
    + intros D. exists l1, t, l2. rewrite B. auto.
    + intros (m1 & t' & m2 & E' & A' & C' & D). rewrite E in E'.
      assert (t = t'); [|congruence].
      clear -E' A A' C C'. revert m1 E' C'. induction l1 as [|x l1 IH]; intros [|y m1] E C'; cbn in E; injection E as E1 E2; subst; auto.
      * exfalso. apply (C' y); [left; auto|auto].
      * exfalso. apply (C t'); [left; auto|auto].
      * apply (IH (fun z Hz => C z (or_intror Hz)) m1 E2). intros; apply C'; right; auto.
  - split; [discriminate|]. intros (l1 & t & l2 & E & A & _). exfalso. apply (F t); auto. rewrite E. apply in_or_app; right; left; auto.
Qed.
Lemma mp_member_spec gs w : is_member mp_keep (filter mp_select (first_relations gs)) (OWay w) = true <-> way_in (first_relations gs) w.
Proof.
  unfold is_member, way_in. rewrite existsb_exists. split.
  - intros (r & Hr & H). apply filter_In in Hr as [Hr S]. apply mp_select_spec in S. apply existsb_exists in H as (m & Hm & H).
    apply andb_true_iff in H as [H1 H2]. unfold names in H2. cbn in H2. apply andb_true_iff in H2 as [H2 H3].
    apply Ascii.eqb_eq in H2. apply Z.eqb_eq in H3. exists r, m. auto.
  - intros (r & m & Hr & S & Hm & T & R). exists r. split; [apply filter_In; split; auto; now apply mp_select_spec|].
    apply existsb_exists. exists m. split; auto. unfold mp_keep, names. cbn. rewrite T, R. cbn. now rewrite Z.eqb_refl.
Qed.
Lemma mp_way_spec w : w_nodes w <> [] -> in_i64 (2 * o_id (w_attrs w)) ->
  (area_shaped w /\ mp_way w = Ok [CArea (area_attrs w)]) \/ (~ area_shaped w /\ mp_way w = Ok []).
Proof.
  intros NE R. unfold mp_way, area_of_way, area_id_of_way, area_attrs, area_shaped.
  assert (Rb : in_i64b (o_id (w_attrs w) * 2) = true) by (unfold in_i64, in_i64b in *; lia). rewrite Rb. cbn [obind].
  rewrite (Z.mul_comm (o_id (w_attrs w))).
  destruct (w_nodes w) as [|n ns]; [congruence|]. cbn [is_closed obind].
  destruct (Z.eqb_spec (wn_ref n) (wn_ref (last ns n))) as [E|E]; cbn [andb].
  - destruct (Nat.leb_spec 4 (List.length (n :: ns))) as [L|L].
    + left. split; auto. destruct ns as [|a [|b ns]]; cbn in L; try lia.
      assert (D : ns <> []) by (intros ->; cbn in L; lia). destruct (exists_last D) as (mid & z & ->).
      exists (wn_ref n), (wn_ref a), (wn_ref b), (map wn_ref mid). cbn. rewrite map_app. cbn. do 5 f_equal.
      change (a :: b :: mid ++ [z]) with ((a :: b :: mid) ++ [z]) in E. rewrite last_last in E. auto.
    + right. split; auto. intros (x & a & b & mid & M). apply (f_equal (@List.length Z)) in M. cbn in M. rewrite map_length, app_length in M. cbn in *. lia.
  - right. split; auto. intros (x & a & b & mid & M). apply E. cbn in M. injection M as M1 M2. rewrite M1.
    destruct ns as [|y ns]; [discriminate|]. destruct (exists_last (l := y :: ns)) as (l & z & El); [discriminate|]. rewrite El in *.
    rewrite last_last. rewrite map_app in M2. cbn in M2. change (a :: b :: mid ++ [x]) with ((a :: b :: mid) ++ [x]) in M2.
    apply app_inj_tail in M2 as [_ M2]. auto.
Qed.

Section MP.
  Variable build : relation -> list (option object) -> outcome (list attrs).
  Lemma mp_events_app a b x y : mp_events build a = Ok x -> mp_events build b = Ok y -> mp_events build (a ++ b) = Ok (x ++ y).
  Proof.
    revert x; induction a as [|e a IH]; intros x; cbn [mp_events app].
    - intros H. injection H as <-. auto.
    - destruct (mp_event build e) as [c| | |]; cbn [obind]; try discriminate. destruct (mp_events build a) as [l| | |]; cbn [obind]; try discriminate.
      intros H Hb. injection H as <-. rewrite (IH l eq_refl Hb). cbn [obind]. now rewrite app_assoc.
  Qed.
  Hypothesis total : forall r ms, exists l, build r ms = Ok l.
  Lemma mp_completions es : (forall e, In e es -> exists j r ms, e = EComplete j r ms) ->
    exists l, areas_of build es l /\ mp_events build es = Ok (map CArea (List.concat l)).
  Proof.
    induction es as [|e es IH]; intros H.
    - exists []. split; constructor.
    - destruct (H e (or_introl eq_refl)) as (j & r & ms & ->). destruct IH as (l & A & B); [intros; apply H; right; auto|].
      destruct (total r ms) as (x & X). exists (x :: l). split; [constructor; auto|]. cbn [mp_events mp_event]. rewrite X. cbn [obind]. rewrite B.
      cbn [obind List.concat]. now rewrite map_app.
  Qed.
  Lemma mp_step gs p c e : events_at mp_keep mp_want (filter mp_select (first_relations gs)) p c e ->
    (forall w, c = CObj (OWay w) -> way_ok w) ->
    exists out, mp_events build e = Ok out /\ mp_output build (first_relations gs) p c out.
  Proof.
    intros H WO. assert (One : forall c', mp_events build [ENext c'] = Ok [c']) by reflexivity.
    destruct c as [|t|o|t|ar|]; cbn [events_at mp_output] in *.
    - subst e. eauto.
    - subst e. eauto.
    - destruct o as [n|w|r]; cbn [obj_type mp_want] in H; [subst e; eauto| |subst e; eauto].
      destruct H as (es & C & ->).
      destruct (mp_completions es) as (l & A & B).
      { intros e He. apply C in He as (j & r & _ & _ & _ & ->). eauto. }
      destruct (WO w eq_refl) as [NE R].
      assert (M : exists own, mp_events build ((if is_member mp_keep (filter mp_select (first_relations gs)) (OWay w) then [] else [ENotIn (OWay w)])) = Ok own /\
        ((own = [CArea (area_attrs w)] /\ ~ way_in (first_relations gs) w /\ area_shaped w) \/ (own = [] /\ (way_in (first_relations gs) w \/ ~ area_shaped w)))).
      { pose proof (mp_member_spec gs w) as MS. destruct (is_member _ _ _).
        - exists []. split; auto. right. split; auto. left. now apply MS.
        - assert (~ way_in (first_relations gs) w) by (intros X; apply MS in X; discriminate).
          cbn [mp_events mp_event]. destruct (mp_way_spec w NE R) as [[S E]|[S E]]; rewrite E; cbn [obind]; eexists; (split; [reflexivity|]); auto. }
      destruct M as (own & M1 & M2). eexists. split.
      + apply mp_events_app; [exact B|]. apply mp_events_app; [exact M1|apply One].
      + exists es, l, own. auto.
    - destruct (mp_want t); [|subst e; eauto]. destruct H as [[_ ->]|[_ ->]]; eexists; split; reflexivity.
    - subst e. eauto.
    - subst e. eauto.
  Qed.

  Lemma mp_run gs : forall cs p a a' es, pass2_all mp_want cs a = Ok (a', es) ->
    (forall w, In (CObj (OWay w)) cs -> way_ok w) ->
    (forall p' c q, cs = p' ++ c :: q -> events_at mp_keep mp_want (filter mp_select (first_relations gs)) (p ++ p') c (nth (List.length p') es [])) ->
    exists outs, mp_all build cs a = Ok (a', outs) /\ List.length outs = List.length cs /\
      forall p' c q, cs = p' ++ c :: q -> mp_output build (first_relations gs) (p ++ p') c (nth (List.length p') outs []).
  Proof.
    induction cs as [|c cs IH]; intros p a a' es E WO H.
    - injection E as <- <-. exists []. split; auto. split; auto. intros [] ? ?; discriminate.
    - cbn [pass2_all] in E. destruct (pass2 mp_want c a) as [[a1 e]| | |] eqn:P; cbn [obind] in E; try discriminate.
      destruct (pass2_all mp_want cs a1) as [[a2 es']| | |] eqn:P2; cbn [obind] in E; try discriminate. injection E as <- <-.
      pose proof (H [] c cs eq_refl) as H0. rewrite app_nil_r in H0. cbn in H0.
      destruct (mp_step gs p c e H0) as (out & O1 & O2).
      { intros w ->. apply WO. left; auto. }
      destruct (IH (p ++ [c]) a1 a2 es' P2) as (outs & Q1 & Q2 & Q3).
      { intros; apply WO; right; auto. }
      { intros p' c' q E. specialize (H (c :: p') c' q). rewrite E in H. specialize (H eq_refl). rewrite <- app_assoc. exact H. }
      exists (out :: outs). cbn [mp_all]. unfold mp_pass2. rewrite P. cbn [obind]. rewrite O1. cbn [obind]. rewrite Q1. cbn [obind].
      split; auto. split; [cbn; lia|]. intros p' c' q E. destruct p' as [|x p'].
      + injection E as <- <-. rewrite app_nil_r. exact O2.
      + injection E as <- ->. specialize (Q3 p' c' q eq_refl). rewrite <- app_assoc in Q3. exact Q3.
  Qed.

  Theorem multipolygon_decisions : forall srt gs runs,
    sorts srt -> (forall g, In g gs -> well_typed g) -> sorted_file runs ->
    (forall w, In (OWay w) (flat_map snd runs) -> way_ok w) ->
    let a := r_handler (fst (parse (pass1 mp_select mp_keep srt) gs None (asm_new mp_want))) in
    exists a' outs, mp_all build (file_calls runs) a = Ok (a', outs) /\ List.length outs = List.length (file_calls runs) /\
      forall p c q, file_calls runs = p ++ c :: q -> mp_output build (first_relations gs) p c (nth (List.length p) outs []).
  Proof.
    intros srt gs runs SR W SF WO a.
    destruct (assembler_correct mp_select mp_keep mp_want srt gs runs SR W SF) as (a' & es & E1 & E2 & E3). fold a in E1.
    destruct (mp_run gs (file_calls runs) [] a a' es E1) as (outs & Q1 & Q2 & Q3).
    - intros w Hw. apply WO. unfold file_calls in Hw. destruct Hw as [Hw|Hw]; [discriminate|]. apply in_app_or in Hw as [Hw|[Hw|[]]]; [|discriminate].
      apply in_flat_map in Hw as (r & Hr & Hw). unfold bracket in Hw. destruct Hw as [Hw|Hw]; [discriminate|].
      apply in_app_or in Hw as [Hw|[Hw|[]]]; [|discriminate]. apply in_map_iff in Hw as (o & Eo & Ho). injection Eo as ->.
      apply in_flat_map. eauto.
    - intros. now apply E3 with q.
    - exists a', outs. auto.
  Qed.
End MP.
