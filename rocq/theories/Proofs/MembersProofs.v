(** The program that shows relations with their members (C73). *)
From Verif Require Import Base.Prelude Base.Decimal Model.Osm Model.Handler Model.Assembler Model.Convert Model.Debug Model.Members
  Spec.HandlerSpec Spec.AssemblerSpec Spec.ToshapeSpec Spec.MembersSpec Proofs.HandlerProofs Proofs.Handler2Proofs
  Proofs.AssemblerProofs Proofs.Assembler2Proofs Proofs.Assembler3Proofs Proofs.Assembler4Proofs.

(* ---- the layout ---- *)
Lemma text_app a b : text_of (a ++ b) = (text_of a ++ text_of b)%string.
Proof. induction a as [|l a IH]; cbn [app text_of]; [reflexivity|]. now rewrite IH, !sapp_assoc. Qed.
Lemma dump_tags_lines indent ts : dump_tags indent ts = text_of (tag_lines indent ts).
Proof. induction ts as [|t ts IH]; cbn [dump_tags tag_lines map text_of]; [reflexivity|]. now rewrite IH, !sapp_assoc. Qed.
Lemma member_kind_kind t : member_kind t = kind t.
Proof.
  unfold member_kind. destruct (Ascii.eqb_spec t "n") as [->|D1]; [reflexivity|]. destruct (Ascii.eqb_spec t "w") as [->|D2]; [reflexivity|].
  destruct (Ascii.eqb_spec t "r") as [->|D3]; [reflexivity|]. destruct t as [[] [] [] [] [] [] [] []]; try reflexivity; congruence.
Qed.
Lemma dump_members_lines : forall ms fs i, List.length fs = List.length ms ->
  dump_members ms fs (Z.of_nat i) = Ok (text_of (flat_map member_lines (combine (seq i (List.length ms)) (combine ms fs)))).
Proof.
  induction ms as [|m ms IH]; intros fs i L; destruct fs as [|f fs]; try discriminate; [reflexivity|].
  cbn [dump_members List.length seq combine flat_map]. replace (Z.of_nat i + 1) with (Z.of_nat (S i)) by lia.
  rewrite IH by (cbn in L; lia). cbn [obind]. f_equal. rewrite text_app, member_kind_kind. unfold member_lines at 2. destruct f as [o|].
  - cbn [text_of]. rewrite dump_tags_lines, !sapp_assoc. reflexivity.
  - cbn [text_of]. rewrite !sapp_assoc. reflexivity.
Qed.
Lemma dump_relation_lines r fs n c : List.length fs = List.length (r_members r) ->
  dump_relation (mkRI (Some r) fs n) c = Ok (report [mkShown r c fs]).
Proof.
  intros L. unfold dump_relation. cbn [ri_rel ri_members]. change 0%Z with (Z.of_nat 0). rewrite (dump_members_lines _ _ 0 L). cbn [obind]. f_equal.
  unfold report. cbn [flat_map]. rewrite app_nil_r. unfold shown_lines. cbn [sh_relation sh_complete sh_found].
  cbn [text_of]. rewrite !text_app, dump_tags_lines, !sapp_assoc. f_equal. f_equal. destruct c; rewrite ?sapp_assoc; reflexivity.
Qed.
Lemma report_app a b : report (a ++ b) = (report a ++ report b)%string.
Proof. unfold report. now rewrite flat_map_app, text_app. Qed.

(* ---- the specification in terms of the assembler's ---- *)
Lemma names_right m o : names m o = true <-> right_object m o.
Proof.
  unfold names, right_object. destruct (letter (obj_type o)) as [c|]; [|split; [discriminate|intros [H _]; discriminate]].
  rewrite andb_true_iff, Z.eqb_eq. split; [intros [H1 H2]; apply Ascii.eqb_eq in H1; split; congruence|].
  intros [H1 H2]. injection H1 as <-. rewrite Ascii.eqb_refl. auto.
Qed.
Lemma complete_there os r : complete_with any_member os r <-> all_there os r.
Proof.
  unfold complete_with, all_there. split.
  - intros [(m & Hm & _) H]. split; [intros E; rewrite E in Hm; destruct Hm|]. intros x Hx. destruct (H x Hx eq_refl) as (o & Ho & N).
    exists o. split; auto. now apply names_right.
  - intros [NE H]. split.
    + destruct (r_members r) as [|m ms]; [congruence|]. exists m. split; [left; auto|reflexivity].
    + intros x Hx _. destruct (H x Hx) as (o & Ho & N). exists o. split; auto. now apply names_right.
Qed.
Lemma slots_found os r : Forall2 (found_in os) (r_members r) (slots any_member os r).
Proof.
  unfold slots. induction (r_members r) as [|m ms IH]; cbn; constructor; auto. destruct (find (names m) os) as [o|] eqn:E.
  - apply find_some in E as [E1 E2]. split; auto. now apply names_right.
  - intros o Ho C. apply names_right in C. pose proof (find_none _ _ E o Ho). congruence.
Qed.
Lemma slots_length os r : List.length (slots any_member os r) = List.length (r_members r).
Proof. unfold slots. apply map_length. Qed.

(* ---- events ---- *)
Definition completed (es : list event) : list shown :=
  flat_map (fun e => match e with EComplete _ r ms => [mkShown r true ms] | _ => [] end) es.
Lemma completed_in es x : In x (completed es) <-> exists j r ms, In (EComplete j r ms) es /\ x = mkShown r true ms.
Proof.
  unfold completed. rewrite in_flat_map. split.
  - intros (e & He & H). destruct e; try destruct H. subst x. eauto 6. contradiction.
  - intros (j & r & ms & H & ->). eexists. split; [exact H|]. left; auto.
Qed.
Lemma events_out : forall es a out, ~ In EAll es -> (forall j r ms, In (EComplete j r ms) es -> List.length ms = List.length (r_members r)) ->
  members_events es (a, out) = Ok (a, (out ++ report (completed es))%string).
Proof.
  induction es as [|e es IH]; intros a out N L; cbn [members_events].
  - unfold report. cbn. now rewrite sapp_nil_r.
  - assert (N' : ~ In EAll es) by (intros C; apply N; right; auto).
    assert (L' : forall j r ms, In (EComplete j r ms) es -> List.length ms = List.length (r_members r)) by (intros; eapply L; right; eauto).
    destruct e as [j r ms| | |]; cbn [members_event completed flat_map app].
    + rewrite dump_relation_lines by (eapply L; left; reflexivity). cbn [obind fst snd]. rewrite IH by auto. fold (completed es).
      change (mkShown r true ms :: completed es) with ([mkShown r true ms] ++ completed es). now rewrite report_app, sapp_assoc.
    + apply IH; auto.
    + destruct N. left; auto.
    + apply IH; auto.
Qed.
Lemma completed_nodup : forall es, (forall l1 j r ms l2, es = l1 ++ EComplete j r ms :: l2 -> forall x, In x (l1 ++ l2) -> ~ completes j x) ->
  (forall j r ms j' ms', In (EComplete j r ms) es -> In (EComplete j' r ms') es -> j = j') -> NoDup (map sh_relation (completed es)).
Proof.
  induction es as [|e es IH]; intros U V; [constructor|].
  assert (IH' : NoDup (map sh_relation (completed es))).
  { apply IH.
    - intros l1 j r ms l2 E x Hx. apply (U (e :: l1) j r ms l2); [now rewrite E|]. right; auto.
    - intros j r ms j' ms' H1 H2. apply (V j r ms j' ms'); right; auto. }
  destruct e as [j r ms| | |]; auto. cbn [completed flat_map app map]. constructor; auto. cbn [sh_relation].
  intros C. apply in_map_iff in C as (x & Ex & Hx). apply completed_in in Hx as (j' & r' & ms' & Hx & ->). cbn in Ex. subst r'.
  assert (j = j') by (apply (V j r ms j' ms'); [left; auto|right; auto]). subst j'.
  apply (U [] j r ms es eq_refl _ Hx). eexists. eexists. reflexivity.
Qed.

Section Run.
  Variable sel : list relation.
  Hypothesis SU : NoDup sel.
  Notation arrives := (arrived any_type).
  Notation done := (complete_with any_member).

  (** the relations completed by callbacks [cs] after [p] *)
  Definition news (p cs : list callback) (D : list shown) : Prop :=
    NoDup (map sh_relation D) /\
    (forall x, In x D <-> exists r, In r sel /\ done (arrives (p ++ cs)) r /\ ~ done (arrives p) r /\ x = mkShown r true (slots any_member (arrives (p ++ cs)) r)) /\
    (forall l1 x l2 y l3 q q', D = l1 ++ x :: l2 ++ y :: l3 -> cs = q ++ q' -> done (arrives (p ++ q)) (sh_relation y) -> done (arrives (p ++ q)) (sh_relation x)).

  Lemma no_all p c e : events_at any_member any_type sel p c e -> ~ types_over any_type (p ++ [c]) -> ~ In EAll e.
  Proof.
    intros H T C. destruct c; cbn [events_at] in H.
    - subst e. destruct C as [C|[]]; discriminate.
    - subst e. destruct C as [C|[]]; discriminate.
    - cbn [any_type] in H. destruct H as (es & [_ K] & ->). apply in_app_or in C as [C|C].
      + apply K in C as (? & ? & _ & _ & _ & C). discriminate.
      + apply in_app_or in C as [C|[C|[]]]; [|discriminate]. destruct (is_member any_member sel o); [destruct C|destruct C as [C|[]]; discriminate].
    - cbn [any_type] in H. destruct H as [[H _]|[_ ->]]; [tauto|]. destruct C as [C|[]]; discriminate.
    - subst e. destruct C as [C|[]]; discriminate.
    - subst e. destruct C as [C|[]]; discriminate.
  Qed.
  Lemma members_step p c a out : inv any_member any_type sel p a -> orderly any_type p [c] -> ~ types_over any_type (p ++ [c]) ->
    exists a' D, members_pass2 c (a, out) = ((a', (out ++ report D)%string), None) /\ inv any_member any_type sel (p ++ [c]) a' /\ news p [c] D.
  Proof.
    intros I O T. destruct (pass2_step any_member any_type sel p c a I O) as (a' & e & E & I' & EV).
    pose proof (fun j r ms => events_complete any_member any_type sel p c e j r ms EV) as EC.
    exists a', (completed e). unfold members_pass2. cbn [fst snd]. rewrite E. cbn [obind fst snd].
    rewrite events_out; [|eapply no_all; eauto|intros j r ms H; apply EC in H as (o & _ & _ & _ & _ & ->); apply slots_length].
    split; [reflexivity|]. split; auto. split; [|split].
    - apply completed_nodup.
      + intros l1 j r ms l2 El. eapply events_nodup; eauto.
      + intros j r ms j' ms' H1 H2. apply EC in H1 as (o & _ & H1 & _). apply EC in H2 as (o' & _ & H2 & _).
        eapply (proj1 (NoDup_nth_error sel)); auto; [apply nth_error_Some; congruence|congruence].
    - intros x. rewrite completed_in. split.
      + intros (j & r & ms & H & ->). apply EC in H as (o & _ & H1 & H2 & H3 & ->). exists r. split; [eapply nth_error_In; eauto|]. auto.
      + intros (r & H1 & H2 & H3 & ->). apply In_nth_error in H1 as (j & H1).
        assert (HC : exists o, c = CObj o).
        { destruct c; eauto; rewrite arrived_snoc, app_nil_r in H2; tauto. }
        destruct HC as (o & ->). exists j, r. eexists. split; [|reflexivity]. apply EC. exists o. auto.
    - intros l1 x l2 y l3 q q' ED EQ H. assert (Hx : In x (completed e)) by (rewrite ED; apply in_or_app; right; left; auto).
      assert (Hy : In y (completed e)) by (rewrite ED; apply in_or_app; right; right; apply in_or_app; right; left; auto).
      assert (K : forall z, In z (completed e) -> done (arrives (p ++ [c])) (sh_relation z) /\ ~ done (arrives p) (sh_relation z)).
      { intros z Hz. apply completed_in in Hz as (j & r & ms & Hz & ->). apply EC in Hz as (o & _ & _ & H2 & H3 & _). auto. }
      destruct q as [|c' [|c'' q]]; [|injection EQ as <- <-; apply K; auto|discriminate EQ].
      rewrite app_nil_r in H. destruct (K y Hy). tauto.
  Qed.

  Lemma over_mono p q : types_over any_type p -> types_over any_type (p ++ q).
  Proof. intros H t O W. apply in_or_app. left. apply H; auto. Qed.
  Lemma members_run : forall cs p a out, inv any_member any_type sel p a -> orderly any_type p cs -> ~ types_over any_type (p ++ cs) ->
    exists a' D, takes members_pass2 cs (a, out) (a', (out ++ report D)%string) /\ inv any_member any_type sel (p ++ cs) a' /\ news p cs D.
  Proof.
    induction cs as [|c cs IH]; intros p a out I O T.
    - exists a, []. rewrite app_nil_r. split; [apply takes_nil; unfold report; cbn; now rewrite sapp_nil_r|]. split; auto.
      split; [constructor|]. split.
      + intros x. rewrite app_nil_r. split; [intros []|]. intros (r & _ & H1 & H2 & _). tauto.
      + intros l1 x l2 y l3 q q' E. destruct l1; discriminate E.
    - destruct O as [O1 O2]. change (c :: cs) with ([c] ++ cs) in T. rewrite app_assoc in T.
      destruct (members_step p c a out I) as (a1 & D1 & S1 & I1 & (U1 & N1 & R1)); [split; [auto|exact Logic.I]|intros C; apply T; now apply over_mono|].
      destruct (IH (p ++ [c]) a1 (out ++ report D1)%string I1 O2 T) as (a2 & D2 & S2 & I2 & (U2 & N2 & R2)).
      exists a2, (D1 ++ D2). rewrite <- app_assoc in I2, N2. cbn [app] in I2, N2. split; [|split; [exact I2|]].
      { apply takes_cons. eexists. split; [exact S1|]. rewrite report_app, <- sapp_assoc. exact S2. }
      assert (AP : arrives (p ++ c :: cs) = arrives (p ++ [c]) ++ arrives cs) by (rewrite <- arrived_app, <- app_assoc; reflexivity).
      assert (M : forall q r, done (arrives (p ++ [c])) r -> done (arrives (p ++ c :: q)) r).
      { intros q r H. change (p ++ c :: q) with (p ++ [c] ++ q). rewrite app_assoc, arrived_app. now apply complete_mono. }
      assert (M0 : forall q r, done (arrives p) r -> done (arrives (p ++ q)) r).
      { intros q r H. rewrite arrived_app. now apply complete_mono. }
      split; [|split].
      + rewrite map_app. apply nodup_app; auto. intros r H1 H2. apply in_map_iff in H1 as (x & <- & Hx). apply in_map_iff in H2 as (y & Ey & Hy).
        apply N1 in Hx as (r1 & _ & A1 & _ & ->). apply N2 in Hy as (r2 & _ & _ & A2 & ->). cbn in Ey. subst r2. tauto.
      + intros x. rewrite in_app_iff, N1, N2. split.
        * intros [(r & H1 & H2 & H3 & ->)|(r & H1 & H2 & H3 & ->)]; exists r.
          -- split; auto. split; auto. split; auto. rewrite AP, slots_mono; auto.
          -- split; auto. split; auto.
        * intros (r & H1 & H2 & H3 & ->). destruct (complete_dec any_member r (arrives (p ++ [c]))) as [H|H].
          -- left. exists r. split; auto. split; auto. split; auto. rewrite AP, slots_mono; auto.
          -- right. exists r. auto.
      + intros l1 x l2 y l3 q q' ED EQ H. destruct q as [|c' q].
        * exfalso. rewrite app_nil_r in H. assert (Hy : In y (D1 ++ D2)) by (rewrite ED; apply in_or_app; right; right; apply in_or_app; right; left; auto).
          apply in_app_or in Hy as [Hy|Hy]; [apply N1 in Hy|apply N2 in Hy]; destruct Hy as (r & _ & _ & H3 & ->); cbn in H; [tauto|].
          apply H3. now apply M0.
        * injection EQ as <- EQ. destruct (complete_dec any_member (sh_relation x) (arrives (p ++ [c]))) as [Hc|Hc]; [now apply M|].
          assert (NI : ~ In x D1) by (intros C; apply N1 in C as (r & _ & C & _ & ->); cbn in Hc; tauto).
          apply app_eq_app in ED as (l & [[E1 E2]|[E1 E2]]).
          -- destruct l as [|z l]; [|injection E2 as -> E2; destruct NI; rewrite E1; apply in_or_app; right; left; auto].
             cbn in E2. change (p ++ c :: q) with (p ++ [c] ++ q) in *. rewrite app_assoc in *. eapply (R2 [] x l2 y l3 q q'); eauto.
          -- change (p ++ c :: q) with (p ++ [c] ++ q) in *. rewrite app_assoc in *. eapply (R2 l x l2 y l3 q q'); eauto.
  Qed.

  (* ---- the end ---- *)
  Definition found_at (S : list object) (r : relation) (i : nat) : option object :=
    match nth_error (r_members r) i with Some m => find (names m) S | None => None end.
  Lemma rels_map S rels : rels_ok any_member sel (arr any_member sel S) rels -> rels = map (fun r => status any_member r (found_at S r)) sel.
  Proof.
    intros [L H]. apply nth_error_ext. intros n. rewrite nth_error_map. destruct (nth_error sel n) as [r|] eqn:E; cbn [option_map].
    - rewrite (H _ _ E). f_equal. apply status_ext. intros i _. unfold arr, found_at. rewrite E. destruct (nth_error (r_members r) i); reflexivity.
    - apply nth_error_None. apply nth_error_None in E. lia.
  Qed.
End Run.

Lemma found_slots S r : map (found_at S r) (seq 0 (List.length (r_members r))) = slots any_member S r.
Proof.
  rewrite <- (slots_arr any_member [r] S 0 r eq_refl). apply map_ext. intros i. unfold found_at, arr. cbn. destruct (nth_error (r_members r) i); reflexivity.
Qed.
Lemma missing_some S r : (missing any_member r (found_at S r) <> 0)%nat <-> one_missing S r.
Proof.
  unfold missing. rewrite filter_none_length. split.
  - intros H. destruct (filter (fun m => none (find (names m) S)) (r_members r)) as [|m l] eqn:E.
    + exfalso. apply H. intros i Hi. unfold kept, found_at. destruct (nth_error (r_members r) i) as [m|] eqn:En; [|reflexivity].
      cbn [any_member andb]. destruct (none (find (names m) S)) eqn:F; auto.
      assert (C : In m (filter (fun m => none (find (names m) S)) (r_members r))) by (apply filter_In; split; auto; eapply nth_error_In; eauto).
      rewrite E in C. destruct C.
    + assert (C : In m (filter (fun m => none (find (names m) S)) (r_members r))) by (rewrite E; left; auto).
      apply filter_In in C as [C1 C2]. exists m. split; auto. intros o Ho R. apply names_right in R. destruct (find (names m) S) eqn:F; [discriminate|].
      pose proof (find_none _ _ F o Ho). congruence.
  - intros (m & Hm & N) C. apply In_nth_error in Hm as (i & Hi). specialize (C i). unfold kept, found_at in C. rewrite Hi in C.
    destruct (find (names m) S) as [o|] eqn:F; [apply find_some in F as [F1 F2]; apply names_right in F2; eapply N; eauto|].
    cbn in C. discriminate C. apply in_seq. split; [lia|]. cbn. apply nth_error_Some. congruence.
Qed.
Lemma clean_out S : forall sel, exists l, exported (one_missing S) (right_entry S false) sel l /\
  dump_relations (filter (fun i => negb (Z.eqb (ri_need i) 0)) (map (fun r => status any_member r (found_at S r)) sel)) = Ok (report l).
Proof.
  induction sel as [|r sel (l & X & E)]; [exists []; split; [constructor|reflexivity]|]. cbn [map filter].
  destruct (Nat.eq_dec (missing any_member r (found_at S r)) 0) as [M|M].
  - exists l. split; [apply exp_skip; auto; intros C; apply missing_some in C; tauto|].
    unfold status at 1. rewrite M. destruct (full any_member r (found_at S r)); exact E.
  - exists (mkShown r false (slots any_member S r) :: l). split.
    + apply exp_take; auto; [now apply missing_some|]. split; [reflexivity|]. split; [reflexivity|]. apply slots_found.
    + assert (F : full any_member r (found_at S r) = false).
      { unfold full. destruct (Nat.eqb_spec (missing any_member r (found_at S r)) 0); [tauto|]. apply andb_false_r. }
      assert (St : status any_member r (found_at S r) = mkRI (Some r) (slots any_member S r) (Z.of_nat (missing any_member r (found_at S r)))).
      { unfold status. now rewrite F, found_slots. }
      rewrite St. cbn [ri_need]. destruct (Z.eqb_spec (Z.of_nat (missing any_member r (found_at S r))) 0); [lia|]. cbn [negb dump_relations].
      rewrite dump_relation_lines by apply slots_length. cbn [obind]. rewrite E. cbn [obind].
      change (mkShown r false (slots any_member S r) :: l) with ([mkShown r false (slots any_member S r)] ++ l). now rewrite report_app.
Qed.

(* ---- the whole program ---- *)
Lemma list_eq_dec_nil {A} (l : list A) : {l = []} + {l <> []}.
Proof. destruct l; [left|right]; congruence. Qed.
Lemma orderly_split : forall a p b, orderly any_type p (a ++ b) -> orderly any_type p a /\ orderly any_type (p ++ a) b.
Proof.
  induction a as [|c a IH]; intros p b H; cbn [app] in *.
  - rewrite app_nil_r. split; [exact I|auto].
  - destruct H as [H1 H2]. apply IH in H2 as [H2 H3]. rewrite <- app_assoc in H3. split; [split|]; auto.
Qed.
Lemma join_types gs t : In t (map fst (join gs)) <-> In t (map fst gs).
Proof.
  induction gs as [|[u os] gs IH]; [tauto|]. cbn [join map fst]. destruct (join gs) as [|[u' os'] r] eqn:J.
  - cbn [map fst] in *. cbn. cbn in IH. tauto.
  - destruct (otype_eqb u u') eqn:E.
    + apply otype_eqb_spec in E. subst u'. cbn [map fst] in *. cbn in *. tauto.
    + cbn [map fst] in *. cbn in *. tauto.
Qed.
Lemma after_in t gs : In (CAfter t) (flat_map bracket gs) <-> In t (map fst gs).
Proof.
  rewrite in_flat_map, in_map_iff. split.
  - intros (g & Hg & H). exists g. split; auto. unfold bracket in H. destruct H as [H|H]; [discriminate|]. apply in_app_or in H as [H|[H|[]]]; [|congruence].
    apply in_map_iff in H as (? & H & _). discriminate.
  - intros (g & <- & Hg). exists g. split; auto. unfold bracket. right. apply in_or_app. right. left. reflexivity.
Qed.
Lemma over_types p gs : (forall t, ~ In (CAfter t) p) -> types_over any_type (p ++ flat_map bracket (join gs)) <-> all_types gs.
Proof.
  intros N. unfold types_over, all_types. split; intros H t O.
  - rewrite <- join_types, <- after_in. specialize (H t O eq_refl). apply in_app_or in H as [H|H]; auto. destruct (N _ H).
  - intros _. apply in_or_app. right. rewrite after_in, join_types. auto.
Qed.
Lemma arrives_prefix : forall cs n, exists q q', cs = q ++ q' /\ arrived any_type q = firstn n (arrived any_type cs).
Proof.
  induction cs as [|c cs IH]; intros n.
  - exists [], []. split; auto. cbn. now rewrite firstn_nil.
  - assert (E : arrived any_type (c :: cs) = arrived any_type [c] ++ arrived any_type cs) by apply (arrived_app any_type [c] cs).
    assert (Q : forall q, arrived any_type (c :: q) = arrived any_type [c] ++ arrived any_type q) by (intros; apply (arrived_app any_type [c])).
    destruct c; try (destruct (IH n) as (q & q' & -> & H); eexists (_ :: q), q'; split; [reflexivity|]; rewrite Q, E, H; reflexivity).
    destruct n as [|n].
    + exists [], (CObj o :: cs). split; auto.
    + destruct (IH n) as (q & q' & -> & H). exists (CObj o :: q), q'. split; auto. rewrite Q, E, H. reflexivity.
Qed.
Lemma first_relations_all gs : in_order gs -> first_relations gs = relations_of (flat_map snd gs).
Proof.
  intros (W & N & _). unfold first_relations. rewrite <- (join_objects gs). pose proof (join_well_typed gs W) as W'. clear W.
  assert (Z : forall l : list (otype * list object), (forall g, In g l -> well_typed g) -> ~ In RELATION (map fst l) -> relations_of (flat_map snd l) = []).
  { induction l as [|[t os] l IH]; intros Wl Nl; [reflexivity|]. cbn [flat_map snd]. unfold relations_of in *. rewrite flat_map_app.
    rewrite IH; [|intros; apply Wl; right; auto|intros C; apply Nl; right; auto]. rewrite app_nil_r.
    destruct (Wl (t, os) (or_introl eq_refl)) as [_ T]. cbn [fst snd] in T.
    assert (t <> RELATION) by (intros ->; apply Nl; left; auto). clear -T H. induction os as [|o os IH]; [reflexivity|]. cbn [flat_map].
    rewrite IH by (intros; apply T; right; auto). specialize (T o (or_introl eq_refl)). destruct o; cbn in *; congruence. }
  revert N W'. generalize (join gs). clear gs. induction l as [|[t os] l IH]; intros N W; [reflexivity|]. cbn [find fst flat_map snd].
  inversion N as [|? ? N1 N2]; subst. assert (Wl : forall g, In g l -> well_typed g) by (intros; apply W; right; auto).
  assert (RA : forall a b, relations_of (a ++ b) = relations_of a ++ relations_of b) by (intros; apply flat_map_app).
  rewrite RA. destruct (otype_eqb t RELATION) eqn:E.
  - apply otype_eqb_spec in E. subst t. cbn [snd]. rewrite (Z l) by auto. now rewrite app_nil_r.
  - rewrite IH by auto. destruct (W (t, os) (or_introl eq_refl)) as [T1 T2].
    assert (K : relations_of (flat_map snd [(t, os)]) = []).
    { apply Z; [intros g [<-|[]]; split; auto|]. cbn. intros [C|[]]. rewrite C in E. discriminate. }
    cbn [flat_map snd] in K. rewrite app_nil_r in K. now rewrite K.
Qed.
Lemma relations_nodup os : no_repeats os -> NoDup (relations_of os).
Proof.
  unfold no_repeats. induction os as [|o os IH]; intros N; [constructor|]. cbn [map] in N. inversion N as [|? ? N1 N2]; subst.
  cbn [relations_of flat_map]. fold (relations_of os). destruct o as [| |r]; cbn [app]; auto. constructor; auto. intros C. apply N1.
  apply in_map_iff. exists (ORel r). split; auto. unfold relations_of in C. apply in_flat_map in C as (o & Ho & C). destruct o; [destruct C|destruct C|destruct C as [<-|[]]]; auto.
Qed.
Lemma pass2_final s : members_pass2 CFinal s = (s, None).
Proof. destruct s; reflexivity. Qed.

Theorem members_program : forall srt gs, sorts srt -> in_order gs ->
  let os := flat_map snd gs in
  exists complete incomplete, relation_members srt (gs, Ok tt) = (report (complete ++ incomplete), None) /\
    NoDup (map sh_relation complete) /\
    (forall r, In r (map sh_relation complete) <-> In r (relations_of os) /\ all_there os r) /\
    (forall x, In x complete -> right_entry os true (sh_relation x) x) /\
    (forall l1 x l2 y l3 n, complete = l1 ++ x :: l2 ++ y :: l3 ->
       all_there (firstn n os) (sh_relation y) -> all_there (firstn n os) (sh_relation x)) /\
    (all_types gs -> exported (one_missing os) (right_entry os false) (relations_of os) incomplete) /\
    (~ all_types gs -> incomplete = []).
Proof.
  intros srt gs SR IO os. pose proof IO as (W & N & K). pose proof (first_relations_all gs IO) as FR. fold os in FR, K.
  destruct (pass1_ready any_member any_relation any_type srt SR gs W) as [RD P1].
  unfold relation_members, input_read. cbn [fst snd].
  destruct (parse (pass1 any_relation any_member srt) gs None (asm_new any_type)) as [st1 h1]. cbn [fst snd] in RD, P1. subst h1.
  assert (FT : filter any_relation (relations_of os) = relations_of os).
  { clear. induction (relations_of os) as [|r l IH]; [reflexivity|]. cbn. now rewrite IH. }
  rewrite FR, FT in RD. set (sel := relations_of os) in *. apply ready_inv in RD.
  destruct (list_eq_dec_nil gs) as [->|NE].
  { exists [], []. cbn. split; [reflexivity|]. split; [constructor|]. split; [intros r; split; [intros []|intros [[] _]]|].
    split; [intros x []|]. split; [intros l1 x l2 y l3 n E; destruct l1; discriminate E|]. split; [constructor|auto]. }
  assert (SF : sorted_file (join gs)) by (split; [auto|split; [now apply join_well_typed|rewrite join_objects; auto]]).
  pose proof (orderly_file any_type (join gs) SF) as OF. unfold file_calls in OF.
  assert (JL : exists init t l, join gs = init ++ [(t, l)]).
  { assert (join gs <> []) by (intros C; destruct gs as [|[u o] r]; [congruence|]; destruct (join_type r u o _ C) as (? & ? & D); discriminate D).
    destruct (exists_last H) as (init & [t l] & E). eauto. }
  destruct JL as (init & t & l & JL).
  set (p := CInit :: flat_map bracket init ++ CBefore t :: map CObj l).
  assert (PR : protocol gs = p ++ [CAfter t]).
  { unfold protocol, p. rewrite JL, flat_map_app. cbn [flat_map]. rewrite app_nil_r. unfold bracket at 2. cbn [fst snd]. cbn [app]. now rewrite <- app_assoc. }
  assert (TO : object_type t) by (apply (join_well_typed gs W (t, l)); rewrite JL; apply in_or_app; right; left; auto).
  assert (NT : ~ In (CAfter t) p).
  { unfold p. intros [C|C]; [discriminate|]. apply in_app_or in C as [C|[C|C]]; [|discriminate|apply in_map_iff in C as (? & C & _); discriminate].
    apply after_in in C. rewrite JL, map_app in N. cbn in N. apply NoDup_remove_2 in N. rewrite app_nil_r in N. tauto. }
  change (CInit :: flat_map bracket (join gs) ++ [CFinal]) with (protocol gs ++ [CFinal]) in OF. rewrite PR, <- app_assoc in OF.
  apply orderly_split in OF as [O1 O2]. cbn [app] in O2. destruct O2 as [O2 _].
  assert (NO : ~ types_over any_type p) by (intros C; apply NT; apply C; auto).
  destruct (members_run sel (relations_nodup os K) p [] (r_handler st1) "" RD O1 NO) as (a1 & D & T1 & I1 & (U & IN & OR)).
  cbn [app] in I1, IN, OR.
  assert (AO : arrived any_type p = os).
  { pose proof (arrived_file any_type (join gs)) as A. unfold file_calls in A.
    change (CInit :: flat_map bracket (join gs) ++ [CFinal]) with (protocol gs ++ [CFinal]) in A. rewrite PR in A.
    rewrite !arrived_app in A. cbn [arrived flat_map app] in A. rewrite !app_nil_r in A. rewrite A, join_objects. fold os. unfold wanted.
    clear. induction os as [|o os IH]; [reflexivity|]. cbn. now rewrite IH. }
  assert (E0 : forall r, ~ complete_with any_member (arrived any_type []) r).
  { intros r [(m & H1 & H2) H]. destruct (H m H1 H2) as (o & [] & _). }
  destruct (pass2_step any_member any_type sel p (CAfter t) a1 I1) as (a2 & e & P2 & I2 & EV); [split; [exact O2|exact Logic.I]|].
  assert (FIN : exists s2 D2, members_pass2 (CAfter t) (a1, report D) = ((s2, (report D ++ report D2)%string), None) /\
      (all_types gs -> exported (one_missing os) (right_entry os false) sel D2) /\ (~ all_types gs -> D2 = [])).
  { assert (TA : types_over any_type (p ++ [CAfter t]) <-> all_types gs).
    { rewrite <- PR. unfold protocol. apply (over_types [CInit]). intros u [C|[]]. discriminate. }
    unfold members_pass2. cbn [fst snd]. rewrite P2. cbn [obind fst snd]. cbn [events_at any_type] in EV.
    destruct EV as [[H ->]|[H ->]].
    - cbn [members_events members_event fst snd]. destruct I2 as [IR _]. rewrite arrived_snoc, app_nil_r, AO in IR. apply rels_map in IR.
      unfold clean_assembled. cbn [a_rels]. rewrite IR. destruct (clean_out os sel) as (D2 & X & E). rewrite E. cbn [obind].
      eexists _, D2. split; [reflexivity|]. split; [auto|]. intros C. destruct C. now apply TA.
    - cbn [members_events members_event obind]. exists a2, []. split; [now rewrite sapp_nil_r|]. split; [intros C; destruct H; now apply TA|auto]. }
  destruct FIN as (a3 & D2 & P3 & F1 & F2).
  exists D, D2. split; [|split; [exact U|split; [|split; [|split; [|split; assumption]]]]].
  - assert (T : takes members_pass2 (protocol gs) (r_handler st1, ""%string) (a3, (report D ++ report D2)%string)).
    { rewrite PR. apply takes_app. eexists. split; [exact T1|]. apply takes_one. exact P3. }
    pose proof (no_throw _ members_pass2 gs (r_handler st1, ""%string) _ NE W T) as OB. rewrite pass2_final in OB. cbn [fst snd] in OB.
    unfold observe in OB. destruct (parse members_pass2 gs None (r_handler st1, ""%string)) as [st2 h2]. cbn [fst snd] in OB.
    injection OB as _ OB1 OB2. subst h2. rewrite OB1. cbn [snd]. now rewrite report_app.
  - intros r. rewrite in_map_iff. split.
    + intros (x & <- & Hx). apply IN in Hx as (r & H1 & H2 & _ & ->). cbn [sh_relation]. split; auto. apply complete_there. now rewrite AO in H2.
    + intros [H1 H2]. apply complete_there in H2. eexists. split; [|apply IN; exists r; rewrite AO; split; [auto|split; [auto|split; [auto|reflexivity]]]]. reflexivity.
  - intros x Hx. apply IN in Hx as (r & H1 & H2 & _ & ->). rewrite AO. split; [reflexivity|]. split; [reflexivity|]. apply slots_found.
  - intros l1 x l2 y l3 n ED H. destruct (arrives_prefix p n) as (q & q' & Eq & A). rewrite AO in A. rewrite <- A in *.
    apply complete_there. apply complete_there in H. eapply OR; eauto.
Qed.
