(** Proofs about Model/Builder.v: rings of a whole relation. *)
From Coq Require Import Sorting.Permutation.
From Verif Require Import Base.Prelude Model.Osm Model.Handler Model.Assembler Model.Builder
  Spec.BuilderSpec Proofs.HandlerProofs Proofs.AssemblerProofs Proofs.Assembler2Proofs Proofs.BuilderProofs.

Lemma spells_app W V p st : spells W p st -> spells (W ++ V) p st.
Proof.
  unfold spells. induction 1 as [|a s p st [H1 H2] F IH]; constructor; auto. split; auto.
  rewrite nth_error_app1; auto. apply nth_error_Some. congruence.
Qed.
Lemma spells_bound W p st : spells W p st -> forall i, In i (map fst p) -> (i < List.length W)%nat.
Proof.
  unfold spells. induction 1 as [|a s p st [H1 H2] F IH]; cbn; [tauto|]. intros i [<-|H]; auto. apply nth_error_Some. congruence.
Qed.

Section Rings.
  Context {G : Type}.
  Variable mkring : list step -> option G.
  Notation ring := (@ring G).

  Lemma ring_of_app W V (r : ring) : ring_of mkring W r -> ring_of mkring (W ++ V) r.
  Proof. intros (p & l & H1 & H2 & H3 & H4). exists p, l. auto using spells_app. Qed.

  Definition J (ws : list winfo) (rings : list ring) : Prop :=
    (forall i w, nth_error ws i = Some w -> wi_used w < Z.of_nat (List.length rings)) /\
    (forall k r, nth_error rings k = Some r ->
       ring_of mkring (map wi_way ws) r /\
       forall i, In i (rg_ways r) -> exists w, nth_error ws i = Some w /\ wi_used w = Z.of_nat k) /\
    (forall i w, nth_error ws i = Some w -> 0 <= wi_used w ->
       exists r, nth_error rings (Z.to_nat (wi_used w)) = Some r /\ In i (rg_ways r)).
  Definition taken (rings : list ring) (i : nat) : Prop := In i (List.concat (map rg_ways rings)).
  Lemma taken_iff rings i : taken rings i <-> exists k r, nth_error rings k = Some r /\ In i (rg_ways r).
  Proof.
    unfold taken. rewrite in_concat. split.
    - intros (l & Il & Ii). apply in_map_iff in Il as (r & <- & Ir). apply In_nth_error in Ir as [k E]. eauto.
    - intros (k & r & E & Ii). exists (rg_ways r). split; auto. apply in_map. eauto using nth_error_In.
  Qed.
  Lemma J_taken ws rings i w : J ws rings -> nth_error ws i = Some w -> (taken rings i <-> 0 <= wi_used w).
  Proof.
    intros (J1 & J2 & J3) E. rewrite taken_iff. split.
    - intros (k & r & Er & Ii). destruct (J2 _ _ Er) as (_ & H). destruct (H _ Ii) as (w' & E' & U). rewrite E in E'. injection E' as <-. lia.
    - intros U. destruct (J3 _ _ E U) as (r & Er & Ii). eauto.
  Qed.
  Lemma J_nodup ws rings : J ws rings -> NoDup (List.concat (map rg_ways rings)).
  Proof.
    intros (J1 & J2 & J3). clear J1 J3.
    assert (H : forall l k0, (forall k r, nth_error l k = Some r -> nth_error rings (k0 + k) = Some r) -> NoDup (List.concat (map rg_ways l))).
    { induction l as [|r l IH]; intros k0 H; [constructor|]. cbn [map List.concat].
      assert (E0 : nth_error rings k0 = Some r) by (rewrite <- (Nat.add_0_r k0); apply H; reflexivity).
      destruct (J2 _ _ E0) as ((p & st & Ep & Np & _) & U).
      apply nodup_app.
      - rewrite <- Ep. now apply NoDup_rev.
      - apply (IH (S k0)). intros k r' E. specialize (H (S k) r' E). now rewrite Nat.add_succ_r in H.
      - intros i Hi Hc. apply (proj1 (taken_iff l i)) in Hc as (k & r' & E & Hi').
        specialize (H (S k) r' E). destruct (J2 _ _ H) as (_ & U'). destruct (U _ Hi) as (w & Ew & Uw). destruct (U' _ Hi') as (w' & Ew' & Uw').
        rewrite Ew in Ew'. injection Ew' as <-. lia. }
    apply (H rings 0%nat). auto.
  Qed.
  Lemma J_bound ws rings i : J ws rings -> taken rings i -> (i < List.length ws)%nat.
  Proof.
    intros (_ & J2 & _) T. apply taken_iff in T as (k & r & E & Ii). destruct (J2 _ _ E) as (_ & H). destruct (H _ Ii) as (w & Ew & _).
    apply nth_error_Some. congruence.
  Qed.

  Lemma first_free_spec ws : forall k,
    match first_free ws k with
    | None => forall i w, nth_error ws i = Some w -> wi_used w <> -1
    | Some (i, w) => exists j, i = (k + j)%nat /\ nth_error ws j = Some w /\ wi_used w = -1 /\
                     forall j' w', (j' < j)%nat -> nth_error ws j' = Some w' -> wi_used w' <> -1
    end.
  Proof.
    induction ws as [|w ws IH]; intros k; cbn [first_free].
    - intros [|i] w E; discriminate.
    - destruct (Z.eqb_spec (wi_used w) (-1)) as [U|U].
      + exists 0%nat. split; [lia|]. split; auto. split; auto. intros; lia.
      + specialize (IH (S k)). destruct (first_free ws (S k)) as [[i w']|].
        * destruct IH as (j & -> & E & U' & M). exists (S j). split; [lia|]. split; auto. split; auto.
          intros [|j'] v Hj Ev; cbn in Ev; [injection Ev as <-; auto|]. apply (M j'); auto. lia.
        * intros [|i] v Ev; cbn in Ev; [injection Ev as <-; auto|]. eauto.
  Qed.

  Definition no_ring (ws : list winfo) (rings : list ring) (i : nat) : Prop :=
    forall p st, candidate (map wi_way ws) (taken rings) i p -> spells (map wi_way ws) p st -> mkring st = None.

  Lemma J_agree ws ws' rings : J ws rings -> agree ws ws' -> J ws' rings.
  Proof.
    intros (J1 & J2 & J3) A. pose proof (agree_sym _ _ A) as A'. split; [|split].
    - intros i w E. destruct (agree_get _ _ _ _ A' E) as (w' & E' & (_ & U & _)). rewrite <- U. eauto.
    - intros k r E. rewrite (agree_ways _ _ A). destruct (J2 _ _ E) as (R & H). split; auto. intros i Ii.
      destruct (H _ Ii) as (w & Ew & U). destruct (agree_get _ _ _ _ A Ew) as (w' & E' & (_ & U' & _)). exists w'. split; auto. lia.
    - intros i w E U. destruct (agree_get _ _ _ _ A' E) as (w' & E' & (_ & U' & _)). rewrite <- U'. apply (J3 i w' E'). lia.
  Qed.
  Lemma J_set ws rings i w w' : J ws rings -> nth_error ws i = Some w -> wi_way w' = wi_way w -> wi_used w < 0 -> wi_used w' < 0 -> J (set_nth i w' ws) rings.
  Proof.
    intros (J1 & J2 & J3) E Ew U U'. split; [|split].
    - intros j v Ej. rewrite set_nth_get in Ej. destruct (Nat.eqb_spec j i) as [->|]; [|eauto].
      destruct (_ <? _)%nat; [injection Ej as <-; lia|discriminate].
    - intros k r Er. rewrite (map_set_nth_same _ _ _ _ _ E Ew). destruct (J2 _ _ Er) as (R & H). split; auto. intros j Ij.
      destruct (H _ Ij) as (v & Ev & Uv). exists v. rewrite set_nth_get. destruct (Nat.eqb_spec j i) as [->|]; auto.
      rewrite E in Ev. injection Ev as <-. lia.
    - intros j v Ej Uv. rewrite set_nth_get in Ej. destruct (Nat.eqb_spec j i) as [->|]; [|eauto].
      destruct (_ <? _)%nat; [injection Ej as <-; lia|discriminate].
  Qed.

  Definition one_ring_fail (ws : list winfo) (rings : list ring) (i : nat) (ws' : list winfo) : Prop :=
    no_ring ws rings i /\ J ws' rings /\ map wi_way ws' = map wi_way ws /\
    (exists w w', nth_error ws i = Some w /\ nth_error ws' i = Some w' /\ wi_used w = -1 /\ wi_used w' = -2) /\
    (forall j w, (j < i)%nat -> nth_error ws j = Some w -> wi_used w <> -1) /\
    (forall j w, j <> i -> nth_error ws j = Some w -> exists w', nth_error ws' j = Some w' /\ wi_used w' = wi_used w).
  Definition one_ring_ok (ws : list winfo) (rings : list ring) (r : ring) (ws' : list winfo) : Prop :=
    J ws' (rings ++ [r]) /\ map wi_way ws' = map wi_way ws /\ (nfree ws' < nfree ws)%nat /\
    (exists i p st, rg_ways r = rev (map fst p) /\ candidate (map wi_way ws) (taken rings) i p /\ spells (map wi_way ws) p st /\ mkring st = Some (rg_geom r)) /\
    (forall j w', nth_error ws' j = Some w' -> wi_used w' < 0 -> exists w, nth_error ws j = Some w /\ wi_used w' = wi_used w).

  Lemma nfree_mono ws ws' : List.length ws = List.length ws' ->
    (forall j w w', nth_error ws j = Some w -> nth_error ws' j = Some w' -> wi_used w' < 0 -> wi_used w < 0) -> (nfree ws' <= nfree ws)%nat.
  Proof.
    unfold nfree. revert ws'; induction ws as [|w ws IH]; intros [|w' ws'] L H; try discriminate; auto. cbn [filter].
    assert (H0 := H 0%nat w w' eq_refl eq_refl).
    assert (IH' : (List.length (filter is_free ws') <= List.length (filter is_free ws))%nat).
    { apply IH; [now injection L|]. intros j v v' E E'. apply (H (S j)); auto. }
    destruct (is_free w') eqn:X; destruct (is_free w) eqn:Y; cbn; try lia.
    unfold is_free in X, Y. apply Z.ltb_lt in X. apply Z.ltb_ge in Y. specialize (H0 X). lia.
  Qed.

  Lemma make_one_ring_spec ws rings : J ws rings ->
    (make_one_ring mkring ws rings = Ok (ws, rings, false) /\ forall i w, nth_error ws i = Some w -> wi_used w <> -1) \/
    (exists i ws', make_one_ring mkring ws rings = Ok (ws', rings, false) /\ one_ring_fail ws rings i ws') \/
    (exists r ws', make_one_ring mkring ws rings = Ok (ws', rings ++ [r], true) /\ one_ring_ok ws rings r ws').
  Proof.
    intros HJ. unfold make_one_ring. pose proof (first_free_spec ws 0) as FF.
    destruct (first_free ws 0) as [[i w]|]; [|left; auto]. right.
    destruct FF as (j & E & Ew & U & M). cbn in E. subst j.
    set (n := Z.of_nat (List.length rings)). set (w1 := wi_set w n 0 false). set (ws1 := set_nth i w1 ws).
    assert (Li : (i < List.length ws)%nat) by (apply nth_error_Some; congruence).
    assert (Hw : map wi_way ws1 = map wi_way ws) by (eapply map_set_nth_same; eauto).
    assert (E1 : nth_error ws1 i = Some w1).
    { unfold ws1. rewrite set_nth_get, Nat.eqb_refl. destruct (Nat.ltb_spec i (List.length ws)); [auto|lia]. }
    assert (Eo : forall j, j <> i -> nth_error ws1 j = nth_error ws j).
    { intros j D. unfold ws1. rewrite set_nth_get. destruct (Nat.eqb_spec j i); [lia|auto]. }
    destruct HJ as (J1 & J2 & J3).
    assert (HI : Inv ws1 [(i, false)] n).
    { split; [repeat constructor; cbn; tauto|]. split.
      - intros [|k] i' b Ek; [|destruct k; discriminate]. cbn in Ek. injection Ek as <- <-. exists w1. cbn. auto.
      - intros j v Ej Uv. cbn. destruct (Nat.eq_dec j i) as [|D]; [auto|]. rewrite Eo in Ej by auto. apply J1 in Ej. lia. }
    assert (Hf : (nfree ws1 < List.length ws)%nat).
    { pose proof (nfree_set ws i w w1 Ew ltac:(lia) ltac:(cbn; lia)). fold ws1 in H. pose proof (nfree_le ws). lia. }
    assert (EWi := nth_error_ways _ _ _ Ew).
    assert (Busy : forall j, ~ taken rings j -> j <> i -> (j < List.length ws)%nat -> free ws1 j).
    { intros j T D L. destruct (nth_error ws j) as [v|] eqn:Ej; [|apply nth_error_None in Ej; lia].
      exists v. rewrite Eo by auto. split; auto. rewrite (J_taken ws rings j v (conj J1 (conj J2 J3)) Ej) in T. lia. }
    destruct (complete_ring_spec mkring (List.length ws) ws1 [(i, false)] (firstnode (wi_way w)) (lastnode (wi_way w)) n ltac:(lia) HI Hf)
      as [(ws' & R & A & Nn)|(ws' & g & ext & R & Wk & F & (st & Sp & Eg) & HI' & Hw' & O)]; cbn [List.length] in R; fold n; fold w1; fold ws1; rewrite R; cbn [obind].
    - left. destruct (agree_get _ _ _ _ A E1) as (w2 & E2 & A2). rewrite E2. exists i. eexists. split; [reflexivity|].
      assert (Ag : agree ws (set_nth i (wi_use w2 (-1)) ws')).
      { eapply agree_set; eauto. split; [cbn; apply A2|split; [cbn; lia|intros; lia]]. }
      assert (Ex : set_nth i (wi_use w2 (-2)) ws' = set_nth i (wi_use w2 (-2)) (set_nth i (wi_use w2 (-1)) ws')).
      { apply nth_error_ext. intros k. rewrite !set_nth_get, set_nth_length. destruct (k =? i)%nat; auto. }
      assert (L' : List.length ws' = List.length ws).
      { rewrite <- (agree_length _ _ A). unfold ws1. apply set_nth_length. }
      assert (HJ' : J (set_nth i (wi_use w2 (-1)) ws') rings) by (eapply J_agree; eauto; exact (conj J1 (conj J2 J3))).
      assert (G1 : nth_error (set_nth i (wi_use w2 (-1)) ws') i = Some (wi_use w2 (-1))).
      { rewrite set_nth_get, Nat.eqb_refl, L'. destruct (Nat.ltb_spec i (List.length ws)); [auto|lia]. }
      unfold one_ring_fail. repeat match goal with |- _ /\ _ => split end.
      + intros p st (w' & ext & E' & -> & N & B & Wk) Sp. rewrite EWi in E'. injection E' as <-.
        apply (Nn ext st); auto; rewrite ?Hw; auto.
        * cbn in N. now inversion N.
        * apply Forall_forall. intros j Ij. apply Busy.
          -- apply B. now right.
          -- intros ->. cbn in N. now inversion N.
          -- rewrite <- (map_length wi_way). eapply spells_bound; eauto. now right.
      + rewrite Ex. eapply J_set; eauto; cbn; auto; lia.
      + rewrite Ex. rewrite (map_set_nth_same wi_way i (wi_use w2 (-2)) _ _ G1 eq_refl). now rewrite (agree_ways _ _ Ag).
      + exists w, (wi_use w2 (-2)). split; auto. split; [|cbn; auto]. rewrite set_nth_get, Nat.eqb_refl, L'. destruct (Nat.ltb_spec i (List.length ws)); [auto|lia].
      + exact M.
      + intros j v D Ej. destruct (agree_get _ _ _ _ Ag Ej) as (v' & Ev' & (_ & Uv & _)). exists v'. split; auto.
        rewrite set_nth_get in Ev' |- *. destruct (Nat.eqb_spec j i); [lia|auto].
    - right. rewrite Hw in Wk, Sp. cbn [app] in Sp, HI'. rewrite Hw in Hw'.
      exists (push_way (mkRing g (rev (map fst ext))) i), ws'. split; [reflexivity|].
      set (r := push_way (mkRing g (rev (map fst ext))) i).
      assert (Er : rg_ways r = rev (map fst ((i, false) :: ext))) by reflexivity.
      destruct HI' as (N & K1 & K2).
      assert (Sps : spells (map wi_way ws') ((i, false) :: ext) st) by now rewrite Hw'.
      assert (In_r : forall j, In j (rg_ways r) <-> In j (map fst ((i, false) :: ext))) by (intros j; rewrite Er; symmetry; apply in_rev).
      assert (L' : List.length ws' = List.length ws) by (rewrite <- (map_length wi_way ws'), Hw', map_length; auto).
      assert (Fr : forall j, In j (map fst ext) -> j <> i /\ exists v, nth_error ws j = Some v /\ wi_used v < 0).
      { intros j Ij. rewrite Forall_forall in F. destruct (F _ Ij) as (v & Ev & Uv).
        assert (D : j <> i). { intros ->. rewrite E1 in Ev. injection Ev as <-. cbn in Uv. lia. }
        split; auto. rewrite Eo in Ev by auto. eauto. }
      assert (Old : forall j, ~ In j (map fst ((i, false) :: ext)) -> forall v, nth_error ws j = Some v -> exists v', nth_error ws' j = Some v' /\ wi_used v' = wi_used v).
      { intros j Nj v Ev. destruct (O j v) as (v' & Ev' & (_ & Uv & _)); eauto; [intros X; apply Nj; now right|].
        rewrite Eo; auto. intros ->. apply Nj. now left. }
      assert (New : forall j, In j (map fst ((i, false) :: ext)) -> exists v', nth_error ws' j = Some v' /\ wi_used v' = n).
      { intros j Ij. destruct (rev_nth_in _ _ _ Ij) as (k & [j' b] & Ek & X). cbn in X. subst j'. destruct (K1 _ _ _ Ek) as (v & Ev & Uv & _). eauto. }
      assert (Back : forall j v', nth_error ws' j = Some v' -> (In j (map fst ((i, false) :: ext)) /\ wi_used v' = n) \/
                      (~ In j (map fst ((i, false) :: ext)) /\ exists v, nth_error ws j = Some v /\ wi_used v' = wi_used v)).
      { intros j v' Ev'. destruct (in_dec Nat.eq_dec j (map fst ((i, false) :: ext))) as [Ij|Nj].
        - left. split; auto. destruct (New _ Ij) as (v & Ev & Uv). congruence.
        - right. split; auto. destruct (nth_error ws j) as [v|] eqn:Ev.
          + destruct (Old j Nj v Ev) as (v2 & Ev2 & Uv). exists v. split; auto. congruence.
          + apply nth_error_None in Ev. assert (j < List.length ws')%nat by (apply nth_error_Some; congruence). lia. }
      assert (NT : forall j, In j (map fst ((i, false) :: ext)) -> ~ taken rings j).
      { intros j [<-|Ij].
        - cbn [fst]. rewrite (J_taken ws rings i w (conj J1 (conj J2 J3)) Ew). lia.
        - destruct (Fr _ Ij) as (_ & v & Ev & Uv). rewrite (J_taken ws rings j v (conj J1 (conj J2 J3)) Ev). lia. }
      unfold one_ring_ok. split; [|split; [auto|split; [|split]]].
      + split; [|split].
        * intros j v' Ev'. rewrite app_length. cbn. destruct (Back _ _ Ev') as [(_ & ->)|(_ & v & Ev & ->)]; [lia|]. apply J1 in Ev. lia.
        * intros k r' Ek. destruct (lt_dec k (List.length rings)) as [Hk|Hk].
          -- rewrite nth_error_app1 in Ek by auto. destruct (J2 _ _ Ek) as (Rg & H). rewrite Hw'. split; auto.
             intros j Ij. destruct (H _ Ij) as (v & Ev & Uv).
             destruct (Old j) with (v := v) as (v' & Ev' & Uv'); auto; [|exists v'; split; auto; lia].
             intros X. apply (NT _ X). apply taken_iff. eauto.
          -- assert (Lk : (k < List.length (rings ++ [r]))%nat) by (apply nth_error_Some; congruence).
             rewrite app_length in Lk. cbn in Lk. assert (k = List.length rings) by lia. subst k.
             rewrite nth_error_app2, Nat.sub_diag in Ek by lia. cbn in Ek. injection Ek as <-. split.
             ++ exists ((i, false) :: ext), st. rewrite Er. split; auto. split; auto. split; auto. split; [|exact Eg].
                split; [intros ->; inversion Sp|]. exists (firstnode (wi_way w)).
                inversion Sp as [|? [w' b'] ? st' [X1 X2] Sp']; subst. cbn in X1, X2. rewrite EWi in X1. injection X1 as <-. subst b'.
                econstructor; [apply starts_fwd|apply ends_fwd|]. eapply walk_chain; eauto.
             ++ intros j Ij. apply In_r in Ij. apply New. exact Ij.
        * intros j v' Ev' Uv'. destruct (Back _ _ Ev') as [(Ij & ->)|(_ & v & Ev & Uv)].
          -- exists r. unfold n. rewrite Nat2Z.id, nth_error_app2, Nat.sub_diag by lia. split; auto. now apply In_r.
          -- rewrite Uv in Uv' |- *. destruct (J3 _ _ Ev Uv') as (r' & Er' & Ij). exists r'. split; auto.
             rewrite nth_error_app1; auto. apply nth_error_Some. congruence.
      + assert (nfree ws' <= nfree ws1)%nat.
        { apply nfree_mono; [unfold ws1; rewrite set_nth_length; lia|]. intros j v v' Ev Ev' Uv'.
          destruct (Back _ _ Ev') as [(_ & X)|(Nj & v2 & Ev2 & X)]; [lia|].
          rewrite Eo in Ev by (intros ->; apply Nj; now left). rewrite Ev in Ev2. injection Ev2 as <-. lia. }
        pose proof (nfree_set ws i w w1 Ew ltac:(lia) ltac:(cbn; lia)) as X. fold ws1 in X. lia.
      + exists i, ((i, false) :: ext), st. split; auto. split; [|split; auto].
        exists (wi_way w), ext. split; auto.
      + intros j v' Ev' Uv'. destruct (Back _ _ Ev') as [(_ & X)|(_ & v & Ev & X)]; [lia|]. eauto.
  Qed.

  (* ---- loops ---- *)
  Definition all_fresh (ws : list winfo) : Prop := forall i w, nth_error ws i = Some w -> wi_used w < 0 -> wi_used w = -1.
  (** the first way in no ring *)
  Definition first_left (ws : list winfo) (rings : list ring) (i : nat) : Prop :=
    (i < List.length ws)%nat /\ ~ taken rings i /\ forall j, (j < i)%nat -> taken rings j.
  Lemma ring_loop_spec fuel : forall ws rings, J ws rings -> (nfree ws < fuel)%nat ->
    exists ws' more, ring_loop mkring fuel ws rings = Ok (ws', rings ++ more) /\ J ws' (rings ++ more) /\
      map wi_way ws' = map wi_way ws /\
      (all_fresh ws -> forall i, first_left ws' (rings ++ more) i -> no_ring ws' (rings ++ more) i).
  Proof.
    induction fuel as [|fuel IH]; intros ws rings HJ Hf; [lia|]. cbn [ring_loop].
    destruct (make_one_ring_spec ws rings HJ) as [(R & N)|[(i & ws' & R & Nr & HJ' & Hw & (w & w' & Ew & Ew' & U & U') & M & O)|(r & ws' & R & HJ' & Hw & Hn & C & Old)]];
      rewrite R; cbn [obind].
    - exists ws, []. rewrite app_nil_r. split; auto. split; auto. split; auto. intros AF i (L & T & _).
      destruct (nth_error ws i) as [w|] eqn:E; [|apply nth_error_None in E; lia].
      exfalso. rewrite (J_taken _ _ _ _ HJ E) in T. apply (N _ _ E). apply (AF _ _ E). lia.
    - exists ws', []. rewrite app_nil_r. split; auto. split; auto. split; auto. intros AF i' (L & T & Le).
      assert (i' = i).
      { destruct (lt_eq_lt_dec i' i) as [[X|X]|X]; auto.
        - exfalso. rewrite <- (map_length wi_way), Hw, map_length in L.
          destruct (nth_error ws i') as [v|] eqn:E; [|apply nth_error_None in E; lia].
          apply (M _ _ X E). apply (AF _ _ E). rewrite (J_taken _ _ _ _ HJ E) in T. lia.
        - exfalso. specialize (Le _ X). rewrite (J_taken _ _ _ _ HJ Ew) in Le. lia. }
      subst i'. unfold no_ring. rewrite Hw. exact Nr.
    - destruct (IH ws' (rings ++ [r]) HJ' ltac:(lia)) as (ws2 & more & R2 & HJ2 & Hw2 & Fr).
      exists ws2, (r :: more). rewrite <- app_assoc in R2, HJ2, Fr. cbn [app] in *. split; auto. split; auto. split; [congruence|].
      intros AF. apply Fr. intros j v E U. destruct (Old _ _ E U) as (v0 & E0 & U0). rewrite U0. apply (AF _ _ E0). lia.
  Qed.

  Lemma reset_get ws i : nth_error (reset ws) i = option_map (fun w => if wi_used w <? 0 then wi_use w (-1) else w) (nth_error ws i).
  Proof. unfold reset. apply nth_error_map. Qed.
  Lemma reset_ways ws : map wi_way (reset ws) = map wi_way ws.
  Proof. unfold reset. rewrite map_map. apply map_ext. intros w. destruct (_ <? _); auto. Qed.
  Lemma J_reset ws rings ps : J ws rings -> J (reset ws ++ map wi_new ps) rings /\ all_fresh (reset ws ++ map wi_new ps).
  Proof.
    intros (J1 & J2 & J3).
    assert (Lr : List.length (reset ws) = List.length ws) by (unfold reset; apply map_length).
    assert (Sp : forall i v, nth_error (reset ws ++ map wi_new ps) i = Some v ->
       (exists w, nth_error ws i = Some w /\ ((wi_used w < 0 /\ wi_used v = -1) \/ (0 <= wi_used w /\ v = w))) \/ wi_used v = -1).
    { intros i v E. destruct (lt_dec i (List.length (reset ws))) as [Hi|Hi].
      - rewrite nth_error_app1, reset_get in E by auto. destruct (nth_error ws i) as [w|]; [|discriminate]. cbn in E. injection E as <-.
        left. exists w. split; auto. destruct (Z.ltb_spec (wi_used w) 0); [left; auto|right; auto].
      - rewrite nth_error_app2, nth_error_map in E by lia. destruct (nth_error ps _); [|discriminate]. cbn in E. injection E as <-. right. reflexivity. }
    split; [split; [|split]|].
    - intros i v E. destruct (Sp _ _ E) as [(w & Ew & [(_ & X)|(_ & ->)])|X]; eauto; lia.
    - intros k r E. destruct (J2 _ _ E) as (R & H). rewrite map_app, reset_ways. split; [now apply ring_of_app|].
      intros i Ii. destruct (H _ Ii) as (w & Ew & U). exists w. split; auto.
      rewrite nth_error_app1, reset_get, Ew by (rewrite Lr; apply nth_error_Some; congruence). cbn.
      destruct (Z.ltb_spec (wi_used w) 0); [lia|auto].
    - intros i v E U. destruct (Sp _ _ E) as [(w & Ew & [(_ & X)|(_ & ->)])|X]; eauto; lia.
    - intros i v E U. destruct (Sp _ _ E) as [(w & Ew & [(_ & X)|(X & ->)])|X]; auto; lia.
  Qed.
  Lemma J_start W : J (map wi_new W) [].
  Proof.
    split; [|split].
    - intros i w E. rewrite nth_error_map in E. destruct (nth_error W i); [|discriminate]. cbn in E. injection E as <-. cbn. lia.
    - intros [|k] r E; discriminate.
    - intros i w E U. rewrite nth_error_map in E. destruct (nth_error W i); [|discriminate]. cbn in E. injection E as <-. cbn in U. lia.
  Qed.
End Rings.
