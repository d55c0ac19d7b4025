(** Proofs about the programs that assemble multipolygons. *)
From Verif Require Import Base.Prelude Base.Decimal Model.Osm Model.Area Model.Store Model.Handler Model.Assembler Model.Convert Model.Debug Model.Members Model.Osmjs Model.Ogr Model.Areas
  Spec.OsmSpec Spec.HandlerSpec Spec.AssemblerSpec Spec.OsmjsSpec Spec.ToshapeSpec Spec.MembersSpec Spec.AreasSpec
  Proofs.HandlerProofs Proofs.Handler2Proofs Proofs.AssemblerProofs Proofs.Assembler2Proofs Proofs.Assembler3Proofs Proofs.Assembler4Proofs
  Proofs.OsmjsProofs Proofs.Osmjs2Proofs Proofs.ToshapeProofs Proofs.MembersProofs.

Definition areas_in (cs : list callback) : list attrs := flat_map (fun c => match c with CArea a => [a] | _ => [] end) cs.
Lemma areas_in_app a b : areas_in (a ++ b) = areas_in a ++ areas_in b.
Proof. apply flat_map_app. Qed.
Lemma areas_in_map l : areas_in (map CArea l) = l.
Proof. induction l as [|a l IH]; [reflexivity|]. cbn. unfold areas_in in IH. now rewrite IH. Qed.

(* ---- the handler ---- *)
Section Run.
  Context {S : Type}.
  Variable on_area : attrs -> S -> S * option halt.
  Fixpoint run_areas (l : list attrs) (s : S) : S * option halt :=
    match l with
    | [] => (s, None)
    | a :: r => match on_area a s with (s', None) => run_areas r s' | x => x end
    end.
  Lemma run_areas_app a b s : run_areas (a ++ b) s = match run_areas a s with (s', None) => run_areas b s' | x => x end.
  Proof. revert s. induction a as [|x a IH]; intros s; [reflexivity|]. cbn. destruct (on_area x s) as [s' [h|]]; auto. Qed.
  Lemma give_run cs s : give_areas on_area cs s = run_areas (areas_in cs) s.
  Proof.
    revert s. induction cs as [|c cs IH]; intros s; [reflexivity|]. change (c :: cs) with ([c] ++ cs) at 2. rewrite areas_in_app.
    destruct c; cbn; auto. destruct (on_area a s) as [s' [h|]]; auto.
  Qed.
  (** how far it gets *)
  Lemma run_areas_split l : forall s s' h, run_areas l s = (s', h) ->
    (h = None) \/ exists l1 a l2 s1 x, l = l1 ++ a :: l2 /\ run_areas l1 s = (s1, None) /\ on_area a s1 = (s', Some x) /\ h = Some x.
  Proof.
    induction l as [|a l IH]; intros s s' h H; cbn in H; [left; congruence|].
    destruct (on_area a s) as [s1 [x|]] eqn:E.
    - injection H as <- <-. right. exists [], a, l, s, x. auto.
    - destruct (IH _ _ _ H) as [->|(l1 & b & l2 & s2 & x & -> & R & O & ->)]; [now left|]. right. exists (a :: l1), b, l2, s2, x.
      split; auto. split; [|auto]. cbn. now rewrite E.
  Qed.

  Context {P N : Type}.
  Variable pset : Z -> position -> P -> outcome P.
  Variable pget : Z -> P -> outcome position.
  Variable nset : Z -> position -> N -> outcome N.
  Variable nget : Z -> N -> outcome position.
  Variable build : relation -> list (option object) -> outcome (list attrs).
  Notation step := (area_pass2 pset pget nset nget build on_area).
  Lemma areas_feed : forall cs pn pn' os a a' outs s s' h, cfw_run pset pget nset nget (objects_of cs) pn = Ok (os, pn') ->
    mp_all build (refill cs os) a = Ok (a', outs) -> run_areas (areas_in (List.concat outs)) s = (s', h) ->
    match h with
    | None => takes step cs (pn, a, s) (pn', a', s')
    | Some x => exists p c q st1 st2, cs = p ++ c :: q /\ takes step p (pn, a, s) st1 /\ step c st1 = (st2, Some x) /\ snd st2 = s'
    end.
  Proof.
    induction cs as [|c r IH]; intros pn pn' os a a' outs s s' h H M R.
    - cbn in H, M. injection H as <- <-. injection M as <- <-. cbn in R. injection R as <- <-. reflexivity.
    - assert (G : forall c' os' pn1, cfw_run pset pget nset nget (objects_of r) pn1 = Ok (os', pn') -> mp_all build (c' :: refill r os') a = Ok (a', outs) ->
        (step c (pn, a, s) = match mp_pass2 build c' a with Ok (a', cs) => let (s', h) := give_areas on_area cs s in ((pn1, a', s'), h) | x => ((pn, a, s), halt_of x) end) ->
        match h with
        | None => takes step (c :: r) (pn, a, s) (pn', a', s')
        | Some x => exists p c' q st1 st2, c :: r = p ++ c' :: q /\ takes step p (pn, a, s) st1 /\ step c' st1 = (st2, Some x) /\ snd st2 = s'
        end).
      { intros c' os' pn1 H1 M1 Z. cbn [mp_all] in M1. apply obind_Ok in M1 as ([a1 e] & Ea & M1). apply obind_Ok in M1 as ([a2 es] & Eb & M1).
        injection M1 as <- <-. rewrite Ea, give_run in Z. cbn [List.concat] in R. rewrite areas_in_app, run_areas_app in R.
        destruct (run_areas (areas_in e) s) as [s1 [x|]].
        - injection R as <- <-. exists [], c, r, (pn, a, s), (pn1, a1, s1). split; [reflexivity|]. split; [reflexivity|]. now split.
        - pose proof (IH _ _ _ _ _ _ _ _ _ H1 Eb R) as T. destruct h as [x|].
          + destruct T as (p & d & q & st1 & st2 & -> & T & E & F). exists (c :: p), d, q, st1, st2. split; [reflexivity|].
            split; [apply takes_cons; eauto|auto].
          + apply takes_cons. eauto. }
      destruct c as [|t|o|t|x|]; try (apply (G _ os pn H M); reflexivity).
      cbn [objects_of flat_map app cfw_run] in H. fold (objects_of r) in H.
      apply obind_Ok in H as ([o' pn1] & E1 & H). apply obind_Ok in H as ([os' pn2] & E2 & H). injection H as <- <-.
      cbn [fst snd refill] in *. apply (G (CObj o') os' pn1 E2 M). cbn [area_pass2]. rewrite E1. reflexivity.
  Qed.
  Lemma final_step st : step CFinal st = (st, None).
  Proof. destruct st as [[pn a] s]. reflexivity. Qed.
End Run.

(* ---- which areas ---- *)
Section Which.
  Variable build : relation -> list (option object) -> outcome (list attrs).
  Variable rs : list relation.
  Notation sel := (filter mp_select rs).
  Notation arrives := (arrived mp_want).
  Notation done := (complete_with mp_keep).
  Definition found_events (p p' : list callback) (E : list event) : Prop :=
    NoDup E /\ forall e, In e E <-> exists j r, nth_error sel j = Some r /\ done (arrives p') r /\ ~ done (arrives p) r /\ e = EComplete j r (slots mp_keep (arrives p') r).
  Definition own_way (o : object) : Prop := exists w, o = OWay w /\ area_shaped w /\ ~ way_in rs w.
  Lemma areas_of_app E1 L1 E2 L2 : areas_of build E1 L1 -> areas_of build E2 L2 -> areas_of build (E1 ++ E2) (L1 ++ L2).
  Proof. apply Forall2_app. Qed.
  Lemma nothing_found p c : (forall o, c = CObj o -> mp_want (obj_type o) = false) -> found_events p (p ++ [c]) [].
  Proof.
    intros H. split; [constructor|]. intros e. split; [intros []|]. intros (j & r & _ & A & B & _). rewrite arrived_snoc in A.
    destruct c; rewrite ?app_nil_r in A; try tauto. rewrite (H _ eq_refl), app_nil_r in A. tauto.
  Qed.
  Lemma step_areas p c out : (forall a, c <> CArea a) -> mp_output build rs p c out ->
    exists own E L, Permutation (areas_in out) (own ++ List.concat L) /\ areas_of build E L /\ found_events p (p ++ [c]) E /\
      exported own_way way_area (objects_of [c]) own.
  Proof.
    intros NA H.
    assert (Q : (forall w, c <> CObj (OWay w)) -> out = [c] -> exists own E L, Permutation (areas_in out) (own ++ List.concat L) /\ areas_of build E L /\
      found_events p (p ++ [c]) E /\ exported own_way way_area (objects_of [c]) own).
    { intros NW ->. exists [], [], []. split; [destruct c; try apply perm_nil; destruct (NA a); reflexivity|]. split; [constructor|]. split.
      - apply nothing_found. intros [n|w|r] E; auto. destruct (NW w); auto.
      - destruct c; cbn; try constructor. 2: constructor. intros (w & -> & _). now destruct (NW w). }
    destruct c as [|t|[n|w|r]|t|a|]; cbn [mp_output] in H; try (apply Q; [discriminate|exact H]).
    destruct H as (es & areas & own & C & A & -> & O). clear Q.
    exists (areas_in own), es, areas. rewrite !areas_in_app, areas_in_map. cbn [areas_in flat_map]. rewrite app_nil_r.
    split; [apply Permutation_app_comm|]. split; [exact A|]. split; [exact C|]. cbn.
    destruct O as [(-> & B & D)|(-> & B)]; cbn.
    - apply exp_take; [exists w; auto|reflexivity|constructor].
    - apply exp_skip; [|constructor]. intros (w' & [= <-] & B1 & B2). tauto.
  Qed.
  Lemma run_which : forall cs p outs, List.length outs = List.length cs -> (forall a, ~ In (CArea a) cs) ->
    (forall q c r, cs = q ++ c :: r -> mp_output build rs (p ++ q) c (nth (List.length q) outs [])) ->
    exists own E L, Permutation (areas_in (List.concat outs)) (own ++ List.concat L) /\ areas_of build E L /\ found_events p (p ++ cs) E /\
      exported own_way way_area (objects_of cs) own.
  Proof.
    induction cs as [|c cs IH]; intros p outs Len NA H.
    - destruct outs; [|discriminate]. exists [], [], []. rewrite (app_nil_r p). split; [constructor|]. split; [constructor|]. split; [|constructor].
      split; [constructor|]. intros e. split; [intros []|]. intros (? & ? & _ & A & B & _). tauto.
    - destruct outs as [|out outs]; [discriminate|]. cbn in Len. injection Len as Len.
      pose proof (H [] c cs eq_refl) as H0. cbn [List.length nth] in H0. rewrite app_nil_r in H0.
      destruct (step_areas p c out) as (own1 & E1 & L1 & P1 & A1 & (U1 & F1) & X1); [intros a ->; apply (NA a); now left|exact H0|].
      destruct (IH (p ++ [c]) outs Len) as (own2 & E2 & L2 & P2 & A2 & (U2 & F2) & X2); [intros a C; apply (NA a); now right| |].
      { intros q d r ->. rewrite <- app_assoc. apply (H (c :: q) d r). reflexivity. }
      exists (own1 ++ own2), (E1 ++ E2), (L1 ++ L2). cbn [List.concat]. rewrite areas_in_app, concat_app. split; [|split; [|split]].
      + rewrite P1, P2. rewrite <- !app_assoc. apply Permutation_app_head. rewrite !app_assoc. apply Permutation_app_tail. apply Permutation_app_comm.
      + now apply areas_of_app.
      + rewrite <- app_assoc in F2. cbn [app] in F2.
        assert (AP : arrives (p ++ c :: cs) = arrives (p ++ [c]) ++ arrives cs) by (rewrite <- arrived_app, <- app_assoc; reflexivity).
        assert (M0 : forall r, done (arrives p) r -> done (arrives (p ++ [c])) r) by (intros; rewrite arrived_app; now apply complete_mono).
        split.
        * apply nodup_app; auto. intros e I1 I2. apply F1 in I1 as (j & r & _ & B & _ & ->). apply F2 in I2 as (j2 & r2 & _ & _ & B2 & E). injection E as -> -> _. tauto.
        * intros e. rewrite in_app_iff, F1, F2. split.
          -- intros [(j & r & B1 & B2 & B3 & ->)|(j & r & B1 & B2 & B3 & ->)]; exists j, r; (split; [auto|]).
             ++ rewrite AP. split; [now apply complete_mono|]. split; auto. now rewrite slots_mono.
             ++ split; auto.
          -- intros (j & r & B1 & B2 & B3 & ->). destruct (complete_dec mp_keep r (arrives (p ++ [c]))) as [D|D].
             ++ left. exists j, r. split; auto. split; auto. split; auto. rewrite AP. now rewrite slots_mono.
             ++ right. exists j, r. auto.
      + change (objects_of (c :: cs)) with (objects_of ([c] ++ cs)). unfold objects_of. rewrite flat_map_app. now apply exported_app.
  Qed.

  (** in the order of the file *)
  Section Order.
    Variable os : list object.
    Fixpoint in_file_order (k : nat) (l : list relation) : list event :=
      match l with
      | [] => []
      | r :: l => (if complete_dec mp_keep r os then [EComplete k r (slots mp_keep os r)] else []) ++ in_file_order (S k) l
      end.
    Lemma in_file_order_in l : forall k e, In e (in_file_order k l) <-> exists j r, nth_error l j = Some r /\ done os r /\ e = EComplete (k + j) r (slots mp_keep os r).
    Proof.
      induction l as [|r l IH]; intros k e; cbn [in_file_order].
      - split; [intros []|]. intros ([|j] & r & H & _); discriminate H.
      - rewrite in_app_iff, IH. split.
        + intros [H|(j & r' & H1 & H2 & ->)].
          * destruct (complete_dec mp_keep r os) as [D|D]; [|destruct H]. destruct H as [<-|[]]. exists 0%nat, r. rewrite Nat.add_0_r. auto.
          * exists (S j), r'. rewrite Nat.add_succ_r. auto.
        + intros ([|j] & r' & H1 & H2 & ->); cbn in H1.
          * injection H1 as ->. left. destruct (complete_dec mp_keep r' os) as [D|D]; [|tauto]. left. now rewrite Nat.add_0_r.
          * right. exists j, r'. rewrite Nat.add_succ_r. auto.
    Qed.
    Lemma in_file_order_nodup l : forall k, NoDup (in_file_order k l).
    Proof.
      induction l as [|r l IH]; intros k; cbn [in_file_order]; [constructor|].
      destruct (complete_dec mp_keep r os) as [D|D]; [|apply IH]. constructor; [|apply IH]. intros C. apply in_file_order_in in C as (j & r' & _ & _ & E). injection E as E _ _. lia.
    Qed.
    Lemma file_order_exported l : forall k L, areas_of build (in_file_order k l) L -> exported (done os) (fun r x => build r (slots mp_keep os r) = Ok x) l L.
    Proof.
      induction l as [|r l IH]; intros k L A; cbn [in_file_order] in A; [inversion A; constructor|].
      destruct (complete_dec mp_keep r os) as [D|D].
      - cbn [app] in A. inversion A; subst. apply exp_take; auto. eapply IH; eauto.
      - apply exp_skip; auto. eapply IH; eauto.
    Qed.
  End Order.
  Lemma exported_filter {A R} (f : A -> bool) (sl : A -> Prop) (ok : A -> R -> Prop) l L : exported sl ok (filter f l) L ->
    exported (fun x => f x = true /\ sl x) ok l L.
  Proof.
    revert L. induction l as [|x l IH]; intros L H; cbn [filter] in H; [inversion H; constructor|]. destruct (f x) eqn:E.
    - inversion H; subst; [apply exp_take; auto|apply exp_skip; auto]. tauto.
    - apply exp_skip; auto. intros [C _]. congruence.
  Qed.
  Lemma exported_iff {A R} (s1 s2 : A -> Prop) (k1 k2 : A -> R -> Prop) l L : (forall x, In x l -> (s1 x <-> s2 x)) -> (forall x r, In x l -> s1 x -> k1 x r -> k2 x r) ->
    exported s1 k1 l L -> exported s2 k2 l L.
  Proof.
    intros H K X. revert H K. induction X as [|x l r L S1 O X IH|x l L S1 X IH]; intros H K; [constructor| |].
    - apply exp_take; [apply H; [now left|auto]|apply K; [now left| |]; auto|apply IH; intros; [apply H|apply K]; auto; now right].
    - apply exp_skip; [intros C; apply S1; apply H; [now left|auto]|apply IH; intros; [apply H|apply K]; auto; now right].
  Qed.
  Lemma ordered p E L : found_events [] p E -> areas_of build E L -> exists L', Permutation (List.concat L) (List.concat L') /\
    exported (fun r => mp_select r = true /\ done (arrives p) r) (fun r x => build r (slots mp_keep (arrives p) r) = Ok x) rs L'.
  Proof.
    intros [U F] A.
    assert (Q : Permutation E (in_file_order (arrives p) 0 sel)).
    { apply NoDup_Permutation; [exact U|apply in_file_order_nodup|]. intros e. rewrite F, in_file_order_in. split.
      - intros (j & r & H1 & H2 & _ & ->). exists j, r. auto.
      - intros (j & r & H1 & H2 & ->). exists j, r. split; auto. split; auto. split; [|reflexivity].
        intros [(m & B1 & B2) B]. destruct (B m B1 B2) as (o & [] & _). }
    destruct (Permutation_Forall2 Q A) as (L' & QL & AL). exists L'. split.
    - clear -QL. induction QL; cbn [List.concat]; [constructor|now apply Permutation_app_head|rewrite !app_assoc; apply Permutation_app_tail; apply Permutation_app_comm|etransitivity; eauto].
    - apply exported_filter. eapply file_order_exported. exact AL.
  Qed.
End Which.

Lemma wanted_way os o : In o (wanted mp_want os) <-> In o os /\ exists w, o = OWay w.
Proof.
  unfold wanted. rewrite filter_In. split; intros [H1 H2]; (split; [auto|]).
  - destruct o; try discriminate. eauto.
  - destruct H2 as (w & ->). reflexivity.
Qed.
Lemma names_way m w : m_type m = "w"%char -> (names m (OWay w) = true <-> o_id (w_attrs w) = m_ref m).
Proof. intros E. unfold names. cbn [obj_type letter]. rewrite E. cbn [Ascii.eqb Bool.eqb andb]. rewrite Z.eqb_eq. unfold obj_id. cbn [obj_attrs]. split; intros H; now rewrite H. Qed.
Lemma done_ready os r : complete_with mp_keep (wanted mp_want os) r <->
  (exists m, In m (r_members r) /\ m_type m = "w"%char) /\ forall m, In m (r_members r) -> m_type m = "w"%char -> exists w, member_way os m w.
Proof.
  unfold complete_with, mp_keep. split; intros [(m & H1 & H2) H]; (split; [exists m; split; auto; now apply Ascii.eqb_eq|]); intros m' I' T.
  - destruct (H m' I') as (o & Ho & Nm); [now apply Ascii.eqb_eq|]. apply wanted_way in Ho as (Ho & w & ->). exists w.
    split; auto. split; auto. now apply (names_way m' w T).
  - apply Ascii.eqb_eq in T. destruct (H m' I' T) as (w & _ & A & B). exists (OWay w). split; [apply wanted_way; eauto|]. now apply names_way.
Qed.
Lemma slots_given os r : complete_with mp_keep (wanted mp_want os) r -> Forall2 (given_member os) (r_members r) (slots mp_keep (wanted mp_want os) r).
Proof.
  intros D. apply done_ready in D as [_ D]. unfold slots. induction (r_members r) as [|m l IH]; [constructor|]. cbn [map].
  constructor; [|apply IH; intros; apply D; auto; now right]. unfold mp_keep. destruct (Ascii.eqb (m_type m) "w") eqn:E.
  - apply Ascii.eqb_eq in E. left. destruct (D m (or_introl eq_refl) E) as (w & _ & A & B).
    destruct (find (names m) (wanted mp_want os)) as [o|] eqn:Fd.
    + apply find_some in Fd as [F1 F2]. apply wanted_way in F1 as (F1 & w' & ->). exists w'. split; auto. split; auto. split; auto. now apply names_way.
    + pose proof (find_none _ _ Fd (OWay w)) as Nf. rewrite (proj2 (names_way m w E) B) in Nf. discriminate Nf. apply wanted_way. eauto.
  - right. split; auto. intros C. rewrite C in E. discriminate.
Qed.
Lemma located_relations dflt os : forall seen, relations_of (located_stream seen os dflt) = relations_of os.
Proof.
  induction os as [|o os IH]; intros seen; [reflexivity|]. cbn [located_stream relations_of flat_map].
  destruct o as [n|w|r]; cbn [locate app]; unfold relations_of in IH; now rewrite IH.
Qed.

Section Program.
  Context {S P N : Type}.
  Variable on_area : attrs -> S -> S * option halt.
  Variable pset : Z -> position -> P -> outcome P.
  Variable pget : Z -> P -> outcome position.
  Variable nset : Z -> position -> N -> outcome N.
  Variable nget : Z -> N -> outcome position.
  Variable build : relation -> list (option object) -> outcome (list attrs).
  Variable srt : list minfo -> list minfo.
  Hypothesis SR : sorts srt.
  Hypothesis BT : forall r ms, exists l, build r ms = Ok l.
  Variable dflt : position.
  Variable domp domn : Z -> Prop.
  Variable p0 : P.
  Variable n0 : N.
  Hypothesis WP : store_works pset pget p0 dflt domp.
  Hypothesis WN : store_works nset nget n0 dflt domn.
  Hypothesis NS : forall a s, snd (on_area a s) <> Some (HExn EStopReading).

  Lemma two_passes_run gs s : in_order gs -> (forall w, In (OWay w) (flat_map snd gs) -> way_ok w) ->
    (forall o id, In o (flat_map snd gs) -> In id (used_ids o) -> id_ok domp domn id) ->
    exists A, areas_of_file build (located_stream [] (flat_map snd gs) dflt) A /\
      two_passes pset pget nset nget build srt on_area p0 n0 (gs, Ok tt) s = run_areas on_area A s.
  Proof.
    intros IO WO D. pose proof IO as (W & ND & K). unfold two_passes, input_read. cbn [fst snd].
    pose proof (pass1_ends mp_select mp_keep srt gs (asm_new mp_want)) as P1.
    destruct (parse (pass1 mp_select mp_keep srt) gs None (asm_new mp_want)) as [st1 h1] eqn:E1. cbn [snd] in P1. subst h1.
    destruct (list_eq_dec_nil gs) as [->|Ne].
    { exists []. split; [|reflexivity]. exists [], []. split; [constructor|]. split; constructor. }
    assert (SF : sorted_file (join gs)) by (split; [auto|split; [now apply join_well_typed|rewrite join_objects; auto]]).
    destruct (cfw_correct pset pget nset nget _ _ dflt domp domn WP WN (flat_map snd gs) D) as (pn & R).
    rewrite <- objects_protocol in R.
    set (calls := located_calls dflt [] (protocol gs ++ [CFinal])).
    assert (FC : calls = file_calls (located_runs dflt [] (join gs))).
    { unfold calls, file_calls, protocol. cbn [app located_calls]. f_equal. rewrite located_brackets. reflexivity. }
    destruct (multipolygon_decisions build BT srt gs (located_runs dflt [] (join gs)) SR W (located_runs_sorted _ _ SF)) as (a' & outs & M & Len & Dec).
    { rewrite located_runs_objects, join_objects. now apply located_ways_ok. }
    rewrite <- FC in M, Len, Dec. rewrite E1 in M. cbn [fst] in M. set (os := located_stream [] (flat_map snd gs) dflt).
    assert (OC : objects_of calls = os).
    { rewrite FC. unfold file_calls, objects_of. cbn [flat_map app]. rewrite flat_map_app. cbn [flat_map app]. rewrite app_nil_r. unfold os.
      rewrite <- (join_objects gs), <- located_runs_objects. clear. induction (located_runs dflt [] (join gs)) as [|[t l] r IH]; [reflexivity|].
      cbn [flat_map]. rewrite flat_map_app, IH. f_equal. unfold bracket. cbn [fst snd flat_map app]. rewrite flat_map_app. cbn [flat_map app].
      rewrite app_nil_r. clear. induction l as [|o os IH]; [reflexivity|]. cbn [map flat_map app]. now rewrite IH. }
    exists (areas_in (List.concat outs)). split.
    - destruct (run_which build (first_relations gs) calls [] outs Len) as (own & E & L & Q & AO & FE & X).
      { intros a C. rewrite FC in C. unfold file_calls in C. destruct C as [C|C]; [discriminate|]. apply in_app_or in C as [C|[C|[]]]; [|discriminate].
        apply in_flat_map in C as (g & _ & C). unfold bracket in C. destruct C as [C|C]; [discriminate|]. apply in_app_or in C as [C|[C|[]]]; [|discriminate].
        apply in_map_iff in C as (? & C & _). discriminate. }
      { intros q c r EQ. apply Dec in EQ. exact EQ. }
      cbn [app] in FE. destruct (ordered build (first_relations gs) calls E L FE AO) as (L' & QL & XL).
      assert (FR : first_relations gs = relations_of os) by (unfold os; rewrite located_relations; now apply first_relations_all).
      assert (AR : arrived mp_want calls = wanted mp_want os).
      { rewrite FC, arrived_file. unfold os. now rewrite located_runs_objects, join_objects. }
      rewrite FR, AR in XL. rewrite FR, OC in X. exists own, L'. split; [exact X|]. split.
      + eapply exported_iff; [| |exact XL].
        * intros r _. cbv beta. rewrite mp_select_spec, done_ready. reflexivity.
        * intros r x _ [_ Dn] B. exists (slots mp_keep (wanted mp_want os) r). split; [now apply slots_given|exact B].
      + rewrite Q. now apply Permutation_app_head.
    - unfold calls in M. rewrite <- refill_located in M. fold calls in M.
      destruct (run_areas on_area (areas_in (List.concat outs)) s) as [s' h] eqn:RA.
      pose proof (areas_feed on_area pset pget nset nget build (protocol gs ++ [CFinal]) _ _ _ _ _ _ s s' h R M RA) as T.
      set (step := area_pass2 pset pget nset nget build on_area) in *.
      destruct h as [x|].
      + destruct T as (p & c & q & st3 & st2 & EQ & T & Ex & <-).
        assert (CF : exists q', protocol gs = p ++ c :: q').
        { destruct (list_eq_dec_nil q) as [->|Nq].
          - exfalso. apply app_inj_tail in EQ as [_ <-]. unfold step in Ex. rewrite final_step in Ex. discriminate.
          - destruct (exists_last Nq) as (q' & z & ->). exists q'. change (c :: q' ++ [z]) with ((c :: q') ++ [z]) in EQ. rewrite app_assoc in EQ.
            now apply app_inj_tail in EQ as [-> _]. }
        destruct CF as (q' & PR).
        assert (Nx : x <> HExn EStopReading).
        { clear -RA NS. intros ->. apply run_areas_split in RA as [C|(l1 & a & l2 & s1 & y & _ & _ & O & [= <-])]; [discriminate|].
          specialize (NS a s1). rewrite O in NS. auto. }
        pose proof (throw_at _ step gs _ p c q' _ _ _ Ne W PR T Ex Nx) as OB. apply observe_inj in OB as [O1 O2].
        destruct (parse step gs None ((p0, n0), r_handler st1, s)) as [st h]. cbn [fst snd] in O1, O2. subst h.
        destruct st2 as [[pn2 a2] s2]. rewrite O1. reflexivity.
      + apply takes_app in T as (st2 & T & T2). apply takes_one in T2. unfold step in T2. rewrite final_step in T2. injection T2 as ->.
        pose proof (no_throw _ step gs _ _ Ne W T) as OB. unfold step in OB at 2 3. rewrite final_step in OB. cbn [fst snd] in OB. apply observe_inj in OB as [O1 O2].
        fold step in O1, O2. destruct (parse step gs None ((p0, n0), r_handler st1, s)) as [st h]. cbn [fst snd] in O1, O2. subst h. rewrite O1. reflexivity.
  Qed.
End Program.
