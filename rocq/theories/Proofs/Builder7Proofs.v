(** Proofs about Model/Builder.v: the theorems on rings as they are stated in Props. *)
From Coq Require Import Sorting.Permutation.
From Verif Require Import Base.Prelude Model.Osm Model.Handler Model.Assembler Model.Builder
  Spec.BuilderSpec Proofs.AssemblerProofs Proofs.BuilderProofs Proofs.Builder2Proofs Proofs.Builder3Proofs.

Section Rings.
  Context {G : Type}.
  Variable mkring : list step -> option G.
  Variable srt : list way_node -> list way_node.
  Variable closer : way_node -> way_node -> way_node -> bool.
  Variable rep : bool.
  Notation mr W := (make_rings mkring srt closer rep (map wi_new W)).

  Lemma make_rings_ok W ws rings : sorts srt -> mr W = Ok (ws, rings) ->
    rings <> [] /\ exists V, map wi_way ws = W ++ V /\ (rep = false -> V = []) /\ (forall z, ends_count V z = (ends_count W z mod 2)%nat) /\
      J mkring ws rings /\ (forall i, first_left ws rings i -> no_ring mkring ws rings i).
  Proof.
    intros Hs E. destruct (make_rings_spec mkring srt closer rep W Hs) as [(R & _)|(V & ws' & rings' & HV & C & Hw & HJ & F & R)]; cbn zeta in R; rewrite E in R; [discriminate|].
    destruct rings' as [|r rings']; [discriminate|]. injection R as -> ->. split; [congruence|]. exists V. auto.
  Qed.
  Lemma rings_thm W ws rings : sorts srt -> mr W = Ok (ws, rings) ->
    exists V, map wi_way ws = W ++ V /\ Forall (ring_of mkring (W ++ V)) rings /\ NoDup (List.concat (map rg_ways rings)).
  Proof.
    intros Hs E. destruct (make_rings_ok _ _ _ Hs E) as (_ & V & Hw & _ & _ & HJ & _). exists V. split; auto. split; [|eapply J_nodup; eauto].
    apply Forall_forall. intros r I. apply In_nth_error in I as [k Ek]. destruct HJ as (_ & J2 & _). rewrite <- Hw. now apply (J2 k).
  Qed.
  Lemma outcomes_thm W : sorts srt ->
    (exists ws rings, mr W = Ok (ws, rings) /\ rings <> []) \/ mr W = Throw EDanglingEnds \/ mr W = Throw ENoRings.
  Proof.
    intros Hs. destruct (make_rings_spec mkring srt closer rep W Hs) as [(R & _)|(V & ws' & rings' & _ & _ & _ & _ & _ & R)]; cbn zeta in R; rewrite R; auto.
    destruct rings' as [|r rings']; auto. left. exists ws', (r :: rings'). split; auto. congruence.
  Qed.
  Lemma exhaustive_thm W ws rings : sorts srt -> mr W = Ok (ws, rings) ->
    forall i, (i < List.length ws)%nat -> ~ in_ring rings i -> (forall j, (j < i)%nat -> in_ring rings j) ->
    forall p st, candidate (map wi_way ws) (in_ring rings) i p -> spells (map wi_way ws) p st -> mkring st = None.
  Proof.
    intros Hs E i L N M p st C Sp. destruct (make_rings_ok _ _ _ Hs E) as (_ & V & _ & _ & _ & _ & F).
    apply (F i) with (p := p); auto. split; auto.
  Qed.
  Lemma no_rings_thm W : sorts srt -> mr W = Throw ENoRings ->
    exists V, (rep = false -> V = []) /\ (forall z, ends_count V z = (ends_count W z mod 2)%nat) /\
      forall p st, candidate (W ++ V) (fun _ => False) 0%nat p -> spells (W ++ V) p st -> mkring st = None.
  Proof.
    intros Hs E. destruct (make_rings_spec mkring srt closer rep W Hs) as [(R & _)|(V & ws' & rings' & HV & C & Hw & _ & F & R)]; cbn zeta in R; rewrite E in R; [discriminate|].
    destruct rings' as [|r rings']; [|discriminate]. exists V. split; auto. split; auto. intros p st Cd Sp.
    rewrite <- Hw in Cd, Sp. apply (F 0%nat) with (p := p); auto.
    split; [|split; [intros []|intros; lia]]. rewrite <- (map_length wi_way). destruct Cd as (w & _ & Ew & _). apply nth_error_Some. congruence.
  Qed.
  Lemma all_closed_thm W : sorts srt -> W <> [] ->
    (forall w, In w W -> firstnode w = lastnode w /\ mkring [(w, false)] <> None) ->
    exists ws rings, mr W = Ok (ws, rings) /\ forall i, (i < List.length W)%nat -> in_ring rings i.
  Proof.
    intros Hs Ne Hc.
    assert (Even : forall z, (ends_count W z mod 2 = 0)%nat).
    { intros z. unfold ends_count. assert (Hc' : forall w, In w W -> firstnode w = lastnode w) by (intros w I; now apply Hc).
      clear - Hc'. induction W as [|w l IH]; auto. cbn [flat_map]. rewrite cnt_app. unfold way_ends at 1. rewrite !cnt_cons.
      assert (X : wn_ref (bfront w) = wn_ref (bback w)) by (apply (Hc' w); now left). rewrite X. cbn [count_occ].
      replace (b2n (wn_ref (bback w)) z + (b2n (wn_ref (bback w)) z + 0) + cnt z (flat_map way_ends l))%nat
        with (cnt z (flat_map way_ends l) + b2n (wn_ref (bback w)) z * 2)%nat by lia.
      rewrite Nat.mod_add by lia. apply IH. intros v I. apply Hc'. now right. }
    destruct (make_rings_spec mkring srt closer rep W Hs) as [(_ & _ & z & O)|(V & ws & rings & _ & C & Hw & HJ & F & R)]; cbn zeta in *.
    { rewrite odd_mod2, Even in O. discriminate. }
    assert (V = []) as ->.
    { destruct V as [|v V]; auto. specialize (C (wn_ref (bfront v))). rewrite Even in C. unfold ends_count in C. cbn in C.
      destruct (Z.eq_dec (wn_ref (bfront v)) (wn_ref (bfront v))); [|congruence]. discriminate. }
    rewrite app_nil_r in Hw.
    assert (All : forall i, (i < List.length W)%nat -> in_ring rings i).
    { intros i. induction i as [i IH] using lt_wf_ind. intros L.
      destruct (in_dec Nat.eq_dec i (List.concat (map rg_ways rings))) as [|N]; auto. exfalso.
      destruct (nth_error W i) as [w|] eqn:Ew; [|apply nth_error_None in Ew; lia].
      destruct (Hc w (nth_error_In _ _ Ew)) as [Cl Nn]. apply Nn.
      assert (Fl : first_left ws rings i).
      { split; [rewrite <- (map_length wi_way), Hw; auto|]. split; auto. intros j Lj. apply IH; auto. lia. }
      assert (Cd : candidate (map wi_way ws) (taken rings) i [(i, false)]).
      { exists w, []. rewrite Hw. split; auto. split; auto. split; [repeat constructor; cbn; tauto|]. split; [intros j [<-|[]]; exact N|]. cbn. auto. }
      apply (F i Fl _ [(w, false)] Cd). constructor; [|constructor]. cbn. now rewrite Hw. }
    destruct rings as [|r rings].
    { exfalso. destruct W as [|w W]; [congruence|]. destruct (All 0%nat); cbn; lia. }
    exists ws, (r :: rings). auto.
  Qed.

  Lemma dangling_thm W : sorts srt -> rep = false ->
    (mr W = Throw EDanglingEnds <-> exists z, Nat.odd (ends_count W z) = true).
  Proof.
    intros Hs Hr. destruct (make_rings_spec mkring srt closer rep W Hs) as [(R & _ & O)|(V & ws & rings & HV & C & Hw & HJ & F & R)]; cbn zeta in *; rewrite R.
    - tauto.
    - split; [destruct rings; discriminate|]. intros (z & O). rewrite odd_mod2, <- C, (HV Hr) in O. discriminate.
  Qed.
  Lemma repair_thm W : sorts srt -> rep = true ->
    mr W <> Throw EDanglingEnds /\
    forall ws rings, mr W = Ok (ws, rings) -> exists V, map wi_way ws = W ++ V /\
      forall z, ends_count V z = (ends_count W z mod 2)%nat /\ Nat.even (ends_count (map wi_way ws) z) = true.
  Proof.
    intros Hs Hr. split.
    - destruct (make_rings_spec mkring srt closer rep W Hs) as [(_ & X & _)|(V & ws & rings & HV & C & Hw & HJ & F & R)]; cbn zeta in *; [congruence|].
      rewrite R. destruct rings; discriminate.
    - intros ws rings E. destruct (make_rings_ok _ _ _ Hs E) as (_ & V & Hw & _ & C & _). exists V. split; auto. intros z. split; auto.
      rewrite Hw. unfold ends_count in *. rewrite flat_map_app, cnt_app, C, Nat.even_add.
      set (n := cnt z (flat_map way_ends W)). destruct (Nat.even n) eqn:X.
      + apply even_mod2 in X. rewrite X. reflexivity.
      + assert (Y : (n mod 2 = 1)%nat); [|rewrite Y; reflexivity].
        pose proof (Nat.mod_upper_bound n 2 ltac:(lia)). destruct (n mod 2)%nat as [|[|]] eqn:Z; auto; [|lia]. apply even_mod2 in Z. congruence.
  Qed.
  Lemma dangling_nodes_thm ws z : sorts srt ->
    cnt z (map wn_ref (single (srt (end_nodes ws)))) = (ends_count (unused ws) z mod 2)%nat /\
    Nat.even (List.length (single (srt (end_nodes ws)))) = true.
  Proof.
    intros Hs. destruct (Hs (end_nodes ws)) as [P S']. split.
    - rewrite single_count by auto. rewrite <- (cnt_perm z _ _ (Permutation_map wn_ref P)). f_equal. unfold ends_count, unused, end_nodes.
      f_equal. clear. induction ws as [|w ws IH]; auto. cbn [flat_map filter]. destruct (wi_used w <? 0); cbn [map flat_map app]; auto. now rewrite IH.
    - rewrite <- Nat.negb_odd, single_length, <- (Permutation_length P), end_nodes_even. reflexivity.
  Qed.
  Lemma closest_thm fuel d wn p ps : weak_order closer -> repair closer fuel (d ++ [wn]) = Ok (p :: ps) ->
    exists x, In x d /\ bnodes p = [x; wn] /\ forall y, In y d -> closer wn y x = false.
  Proof.
    intros Ho. destruct fuel as [|fuel]; [destruct d; discriminate|].
    destruct (d ++ [wn]) as [|x0 d0] eqn:E; [destruct d; discriminate|]. cbn [repair]. rewrite <- E. clear E x0 d0 || idtac.
    rewrite last_last, removelast_last. destruct d as [|c r]; [discriminate|].
    destruct (closest closer wn r 1 (0%nat, c)) as [k x] eqn:Ec.
    destruct (repair closer fuel _) as [ps'| | |]; try discriminate. cbn [obind]. intros X. injection X as <- <-.
    destruct (closest_get closer wn r [c] 0%nat k c eq_refl (ex_intro _ x Ec)) as (y & Ec' & Ek). cbn [List.length] in Ec'. rewrite Ec in Ec'. injection Ec' as <-.
    pose proof (closest_min closer wn Ho r 1 0 c) as Mn. rewrite Ec in Mn. destruct Mn as [M1 M2].
    exists x. split; [eapply nth_error_In; exact Ek|]. split; [reflexivity|]. intros y [<-|I]; auto.
  Qed.
End Rings.
