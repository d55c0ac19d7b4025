(** Proofs about Model/Builder.v: dangling ends and make_rings as a whole. *)
From Coq Require Import Sorting.Permutation Sorting.Sorted.
From Verif Require Import Base.Prelude Model.Osm Model.Handler Model.Assembler Model.Builder
  Spec.BuilderSpec Proofs.HandlerProofs Proofs.AssemblerProofs Proofs.Assembler2Proofs Proofs.BuilderProofs Proofs.Builder2Proofs.

Notation cnt z l := (count_occ Z.eq_dec l z).

(* ---- dangling nodes ---- *)
Lemma list_ind2 {A} (P : list A -> Prop) : P [] -> (forall a, P [a]) -> (forall a b l, P l -> P (b :: l) -> P (a :: b :: l)) -> forall l, P l.
Proof. intros H0 H1 H2. assert (H : forall l, P l /\ forall a, P (a :: l)) by (induction l as [|b l [IH1 IH2]]; split; auto). intros l. apply H. Qed.
Lemma single_count z l : StronglySorted ref_le l -> cnt z (map wn_ref (single l)) = (cnt z (map wn_ref l) mod 2)%nat.
Proof.
  induction l as [|a|a b l IH1 IH2] using list_ind2; intros Hs.
  - reflexivity.
  - cbn. destruct (Z.eq_dec (wn_ref a) z); reflexivity.
  - cbn [single]. inversion Hs as [|? ? Hs' F]; subst. destruct (Z.eqb_spec (wn_ref a) (wn_ref b)) as [E|E].
    + inversion Hs'; subst. rewrite IH1 by auto. cbn [map]. rewrite E. cbn [count_occ]. destruct (Z.eq_dec (wn_ref b) z); auto.
      replace (S (S (cnt z (map wn_ref l)))) with (cnt z (map wn_ref l) + 1 * 2)%nat by lia. now rewrite Nat.mod_add by lia.
    + change (cnt z (wn_ref a :: map wn_ref (single (b :: l))) = (cnt z (wn_ref a :: map wn_ref (b :: l)) mod 2)%nat).
      cbn [count_occ]. rewrite IH2 by auto. destruct (Z.eq_dec (wn_ref a) z) as [X|X]; auto.
      assert (cnt z (map wn_ref (b :: l)) = 0%nat) as ->; [|reflexivity].
      apply count_occ_not_In. intros I. apply in_map_iff in I as (y & Ey & Iy).
      inversion F as [|? ? Fb _]; subst. unfold ref_le in Fb. destruct Iy as [<-|Iy]; [lia|].
      inversion Hs' as [|? ? _ Fl]; subst. rewrite Forall_forall in Fl. specialize (Fl _ Iy). unfold ref_le in Fl. lia.
Qed.
Lemma single_length l : Nat.odd (List.length (single l)) = Nat.odd (List.length l).
Proof.
  induction l as [|a|a b l IH1 IH2] using list_ind2; auto. cbn [single]. destruct (_ =? _).
  - rewrite IH1. cbn [List.length]. now rewrite !Nat.odd_succ, Nat.even_succ.
  - change (Nat.odd (S (List.length (single (b :: l)))) = Nat.odd (S (List.length (b :: l)))).
    rewrite !Nat.odd_succ, <- !Nat.negb_odd. now rewrite IH2.
Qed.
Lemma end_nodes_even ws : Nat.odd (List.length (end_nodes ws)) = false.
Proof.
  unfold end_nodes. induction ws as [|w ws IH]; auto. cbn [flat_map]. rewrite app_length. destruct (_ <? _); auto.
Qed.

(* ---- repair ---- *)
Section Repair.
  Variable closer : way_node -> way_node -> way_node -> bool.
  Lemma closest_get wn l : forall pre k b x,
    nth_error (pre ++ l) k = Some x -> (exists y, closest closer wn l (List.length pre) (k, x) = (b, y)) ->
    exists y, closest closer wn l (List.length pre) (k, x) = (b, y) /\ nth_error (pre ++ l) b = Some y.
  Proof.
    induction l as [|z l IH]; intros pre k b x E (y & R); cbn [closest] in *.
    - injection R as <- <-. eauto.
    - cbn [snd] in *. replace (S (List.length pre)) with (List.length (pre ++ [z])) in * by (rewrite app_length; cbn; lia).
      assert (X : pre ++ z :: l = (pre ++ [z]) ++ l) by (rewrite <- app_assoc; reflexivity). rewrite X in *.
      destruct (closer wn z x); apply IH; eauto.
      rewrite <- app_assoc, nth_error_app2, Nat.sub_diag by lia. reflexivity.
  Qed.
  Lemma remove_nth_perm {A} (l : list A) : forall k x, nth_error l k = Some x -> Permutation l (x :: remove_nth k l).
  Proof.
    induction l as [|y l IH]; intros [|k] x E; cbn in *; try discriminate.
    - now injection E as ->.
    - rewrite perm_swap. constructor. auto.
  Qed.
  Lemma remove_nth_length {A} (l : list A) k x : nth_error l k = Some x -> List.length l = S (List.length (remove_nth k l)).
  Proof. intros E. now rewrite (Permutation_length (remove_nth_perm _ _ _ E)). Qed.
  Lemma repair_spec fuel : forall d, Nat.odd (List.length d) = false -> (List.length d <= fuel)%nat ->
    exists ps, repair closer fuel d = Ok ps /\ Permutation (flat_map way_ends ps) (map wn_ref d).
  Proof.
    induction fuel as [|fuel IH]; intros d Ev L.
    - destruct d; [|cbn in L; lia]. exists []. now split.
    - destruct d as [|x0 d0]; [exists []; split; auto; constructor|].
      cbn [repair]. set (d := x0 :: d0) in *.
      assert (Ne : d <> []) by (unfold d; discriminate).
      pose proof (app_removelast_last x0 Ne) as Ed. set (wn := last d x0) in *.
      destruct (removelast d) as [|c r] eqn:Er.
      { rewrite Ed in Ev. cbn in Ev. discriminate. }
      destruct (closest closer wn r 1 (0%nat, c)) as [k x] eqn:Ec.
      destruct (closest_get wn r [c] 0%nat k c eq_refl (ex_intro _ x Ec)) as (y & Ec' & Ek). cbn [List.length] in Ec'. rewrite Ec in Ec'. injection Ec' as <-.
      cbn [app] in Ek. pose proof (remove_nth_length _ _ _ Ek) as Ln. pose proof (remove_nth_perm _ _ _ Ek) as Pm.
      assert (Ld : List.length d = S (S (List.length (remove_nth k (c :: r))))).
      { rewrite Ed, app_length, Ln. cbn. lia. }
      destruct (IH (remove_nth k (c :: r))) as (ps & R & P).
      { rewrite Ld, Nat.odd_succ, Nat.even_succ in Ev. exact Ev. }
      { lia. }
      rewrite R. cbn [obind]. exists (pseudo_way x wn :: ps). split; auto.
      cbn [flat_map]. rewrite P. unfold way_ends, pseudo_way, bfront, bback. cbn [b_head b_tail last].
      rewrite Ed, map_app. cbn [map app].
      pose proof (Permutation_map wn_ref Pm) as Pm'. cbn [map] in Pm'.
      change (wn_ref c :: map wn_ref r ++ [wn_ref wn]) with ((wn_ref c :: map wn_ref r) ++ [wn_ref wn]). symmetry. etransitivity; [symmetry; apply Permutation_cons_append|]. etransitivity; [constructor; exact Pm'|]. apply perm_swap.
  Qed.
  (** the partner of a node is closest among those left *)
  Lemma closest_min wn (H : weak_order closer) l : forall k j x,
    let '(b, y) := closest closer wn l k (j, x) in closer wn x y = false /\ forall z, In z l -> closer wn z y = false.
  Proof.
    destruct (H wn) as (Hi & Ht & Ha).
    induction l as [|z l IH]; intros k j x; cbn [closest].
    - split; [auto|intros ? []].
    - cbn [snd]. destruct (closer wn z x) eqn:E.
      + specialize (IH (S k) k z). destruct (closest closer wn l (S k) (k, z)) as [b y]. destruct IH as (H1 & H2).
        split; [eapply Ht; eauto|]. intros v [<-|Iv]; auto.
      + specialize (IH (S k) j x). destruct (closest closer wn l (S k) (j, x)) as [b y]. destruct IH as (H1 & H2).
        split; auto. intros v [<-|Iv]; auto. eapply Ht; eauto.
  Qed.
End Repair.

(* ---- way ends by number ---- *)
Definition endsI (W : list bway) (l : list nat) : list Z :=
  flat_map (fun i => match nth_error W i with Some w => way_ends w | None => [] end) l.
Lemma flat_map_perm {A B} (f : A -> list B) l l' : Permutation l l' -> Permutation (flat_map f l) (flat_map f l').
Proof. apply Permutation_flat_map. Qed.
Lemma endsI_all W : flat_map way_ends W = endsI W (seq 0 (List.length W)).
Proof.
  unfold endsI.
  assert (H : forall l k, (forall j, nth_error l j = nth_error W (k + j)) ->
     flat_map way_ends l = flat_map (fun i => match nth_error W i with Some w => way_ends w | None => [] end) (seq k (List.length l))).
  { induction l as [|w l IH]; intros k H; auto. cbn [flat_map List.length seq]. f_equal.
    - specialize (H 0%nat). rewrite Nat.add_0_r in H. now rewrite <- H.
    - apply IH. intros j. specialize (H (S j)). cbn in H. rewrite H. f_equal. lia. }
  apply H. reflexivity.
Qed.
Lemma cnt_app z a b : cnt z (a ++ b) = (cnt z a + cnt z b)%nat.
Proof. apply count_occ_app. Qed.
Lemma cnt_perm z a b : Permutation a b -> cnt z a = cnt z b.
Proof. intros P. now apply Permutation_count_occ. Qed.
Lemma spells_ends W p st : spells W p st -> endsI W (map fst p) = flat_map way_ends (map fst st).
Proof. unfold spells, endsI. induction 1 as [|a s p st [H1 H2] F IH]; auto. cbn. now rewrite H1, IH. Qed.
Lemma trace_ends s a b : starts_at (trace s) a -> ends_at (trace s) b -> Permutation (way_ends (fst s)) [a; b].
Proof.
  destruct s as [w inv]. unfold way_ends. intros (x & r & E1 & <-) (q & y & E2 & <-). cbn [fst].
  destruct inv; unfold trace in E1, E2; cbn [fst snd] in E1, E2.
  - assert (wn_ref y = wn_ref (bfront w)).
    { unfold bnodes in E2. cbn [rev] in E2. apply app_inj_tail in E2 as [_ <-]. reflexivity. }
    assert (wn_ref x = wn_ref (bback w)).
    { destruct (bnodes_last w) as [r' E]. rewrite E, rev_app_distr in E1. cbn in E1. now injection E1 as <-. }
    rewrite H, H0. apply perm_swap.
  - assert (wn_ref x = wn_ref (bfront w)) by (unfold bnodes in E1; now injection E1 as <-).
    assert (wn_ref y = wn_ref (bback w)).
    { destruct (bnodes_last w) as [r' E]. rewrite E in E2. apply app_inj_tail in E2 as [_ <-]. reflexivity. }
    now rewrite H, H0.
Qed.
Definition b2n (a z : Z) : nat := if Z.eq_dec a z then 1%nat else 0%nat.
Lemma cnt_cons z a l : cnt z (a :: l) = (b2n a z + cnt z l)%nat.
Proof. cbn. unfold b2n. destruct (Z.eq_dec a z); lia. Qed.
Lemma chain_parity z a l b : chain a l b -> Nat.even (cnt z (flat_map way_ends (map fst l)) + b2n a z + b2n b z) = true.
Proof.
  induction 1 as [a|a b c s l H1 H2 H IH].
  - cbn. unfold b2n. destruct (Z.eq_dec a z); reflexivity.
  - cbn [map flat_map]. rewrite cnt_app, (cnt_perm z _ _ (trace_ends s a b H1 H2)), !cnt_cons. cbn [count_occ].
    replace (b2n a z + (b2n b z + 0) + cnt z (flat_map way_ends (map fst l)) + b2n a z + b2n c z)%nat
      with (cnt z (flat_map way_ends (map fst l)) + b2n b z + b2n c z + 2 * b2n a z)%nat by lia.
    rewrite Nat.even_add, IH, Nat.even_mul. reflexivity.
Qed.
Lemma closed_parity z l : closed_chain l -> Nat.even (cnt z (flat_map way_ends (map fst l))) = true.
Proof.
  intros (_ & a & C). apply (chain_parity z) in C.
  replace (_ + _ + _)%nat with (cnt z (flat_map way_ends (map fst l)) + 2 * b2n a z)%nat in C by lia.
  rewrite Nat.even_add, Nat.even_mul in C. cbn [Nat.even orb] in C. now destruct (Nat.even _).
Qed.

Section Whole.
  Context {G : Type}.
  Variable mkring : list step -> option G.
  Notation ring := (@ring G).
  Lemma rings_parity z W (rings : list ring) :
    Forall (ring_of mkring W) rings -> Nat.even (cnt z (endsI W (List.concat (map rg_ways rings)))) = true.
  Proof.
    induction 1 as [|r rings (p & st & E & N & Sp & C & _) F IH]; auto. cbn [map List.concat].
    unfold endsI. rewrite flat_map_app, cnt_app, Nat.even_add. fold (endsI W (List.concat (map rg_ways rings))). rewrite IH.
    fold (endsI W (rg_ways r)). rewrite <- E.
    rewrite (cnt_perm z (endsI W (rev (map fst p))) (endsI W (map fst p))).
    - rewrite (spells_ends _ _ _ Sp), closed_parity; auto.
    - apply flat_map_perm. symmetry. apply Permutation_rev.
  Qed.
  Definition freeb (ws : list winfo) (i : nat) : bool := match nth_error ws i with Some w => wi_used w <? 0 | None => false end.
  Lemma end_nodes_I ws : map wn_ref (end_nodes ws) = endsI (map wi_way ws) (filter (freeb ws) (seq 0 (List.length ws))).
  Proof.
    unfold end_nodes, endsI.
    assert (H : forall l k, (forall j, nth_error l j = nth_error ws (k + j)) ->
       map wn_ref (flat_map (fun w => if wi_used w <? 0 then [bfront (wi_way w); bback (wi_way w)] else []) l) =
       flat_map (fun i => match nth_error (map wi_way ws) i with Some w => way_ends w | None => [] end) (filter (freeb ws) (seq k (List.length l)))).
    { induction l as [|w l IH]; intros k H; auto. cbn [flat_map List.length seq filter]. rewrite map_app.
      rewrite (IH (S k)) by (intros j; specialize (H (S j)); cbn in H; rewrite H; f_equal; lia).
      specialize (H 0%nat). rewrite Nat.add_0_r in H. cbn in H. unfold freeb at 2. rewrite <- H.
      destruct (wi_used w <? 0); auto. cbn [flat_map]. rewrite nth_error_map, <- H. reflexivity. }
    apply H. reflexivity.
  Qed.
  Lemma J_partition ws (rings : list ring) : J mkring ws rings ->
    Permutation (seq 0 (List.length ws)) (List.concat (map rg_ways rings) ++ filter (freeb ws) (seq 0 (List.length ws))).
  Proof.
    intros HJ. apply NoDup_Permutation.
    - apply seq_NoDup.
    - apply nodup_app; [eapply J_nodup; eauto|apply NoDup_filter, seq_NoDup|].
      intros i T Hi. apply filter_In in Hi as [_ Hi]. unfold freeb in Hi. destruct (nth_error ws i) as [w|] eqn:E; [|discriminate].
      apply Z.ltb_lt in Hi. apply (proj1 (J_taken mkring _ _ _ _ HJ E)) in T. lia.
    - intros i. rewrite in_app_iff, filter_In, in_seq. cbn. split.
      + intros [_ L]. destruct (nth_error ws i) as [w|] eqn:E; [|apply nth_error_None in E; lia].
        unfold freeb. rewrite E. destruct (Z.ltb_spec (wi_used w) 0); [right; split; auto; lia|left].
        now apply (proj2 (J_taken mkring _ _ _ _ HJ E)).
      + intros [T|[L _]]; [|lia]. split; [lia|]. eapply J_bound; eauto.
  Qed.
  Lemma left_parity z ws (rings : list ring) : J mkring ws rings ->
    (cnt z (map wn_ref (end_nodes ws)) mod 2 = ends_count (map wi_way ws) z mod 2)%nat.
  Proof.
    intros HJ. unfold ends_count. rewrite endsI_all, map_length. unfold endsI.
    rewrite (cnt_perm z _ _ (flat_map_perm _ _ _ (J_partition _ _ HJ))).
    rewrite flat_map_app, cnt_app.
    change (flat_map (fun i => match nth_error (map wi_way ws) i with Some w => way_ends w | None => [] end)) with (endsI (map wi_way ws)).
    rewrite <- end_nodes_I.
    assert (F : Forall (ring_of mkring (map wi_way ws)) rings).
    { apply Forall_forall. intros r Ir. apply In_nth_error in Ir as [k E]. destruct HJ as (_ & J2 & _). now apply (J2 k). }
    pose proof (rings_parity z _ _ F) as Ev. apply Nat.even_spec in Ev as [m Em]. rewrite Em.
    rewrite Nat.add_comm, Nat.mul_comm, Nat.mod_add by lia. reflexivity.
  Qed.

  Variable srt : list way_node -> list way_node.
  Variable closer : way_node -> way_node -> way_node -> bool.
  Variable attempt_repair : bool.

  Lemma dangling_count ws (rings : list ring) z : sorts srt -> J mkring ws rings ->
    cnt z (map wn_ref (single (srt (end_nodes ws)))) = (ends_count (map wi_way ws) z mod 2)%nat.
  Proof.
    intros Hs HJ. destruct (Hs (end_nodes ws)) as [P S']. rewrite single_count by auto.
    rewrite <- (cnt_perm z _ _ (Permutation_map wn_ref P)). eapply left_parity; eauto.
  Qed.
  Lemma odd_mod2 n : Nat.odd n = negb (n mod 2 =? 0)%nat.
  Proof. rewrite <- Nat.bit0_odd, Nat.bit0_eqb. pose proof (Nat.mod_upper_bound n 2). destruct (n mod 2)%nat as [|[|]]; auto; lia. Qed.
  Lemma even_mod2 n : Nat.even n = true <-> (n mod 2 = 0)%nat.
  Proof. rewrite <- Nat.negb_odd, odd_mod2, negb_involutive. apply Nat.eqb_eq. Qed.

  Lemma find_and_repair_spec ws (rings : list ring) : sorts srt -> J mkring ws rings ->
    (find_and_repair srt closer attempt_repair ws = Ok (reset ws, false) /\ attempt_repair = false /\ exists z, Nat.odd (ends_count (map wi_way ws) z) = true) \/
    (exists V, find_and_repair srt closer attempt_repair ws = Ok (reset ws ++ map wi_new V, true) /\
      (attempt_repair = false -> V = []) /\ forall z, ends_count V z = (ends_count (map wi_way ws) z mod 2)%nat).
  Proof.
    intros Hs HJ. unfold find_and_repair. set (d := single (srt (end_nodes ws))).
    assert (C : forall z, cnt z (map wn_ref d) = (ends_count (map wi_way ws) z mod 2)%nat) by (intros z; eapply dangling_count; eauto).
    assert (Od : Nat.odd (List.length d) = false).
    { unfold d. rewrite single_length. destruct (Hs (end_nodes ws)) as [P _]. rewrite <- (Permutation_length P). apply end_nodes_even. }
    rewrite Od. destruct (negb attempt_repair && negb (List.length d =? 0)%nat) eqn:B.
    - left. apply andb_true_iff in B as [B1 B2]. split; auto. split; [now destruct attempt_repair|].
      destruct d as [|x d']; [discriminate|]. exists (wn_ref x). rewrite odd_mod2, <- C. cbn. destruct (Z.eq_dec (wn_ref x) (wn_ref x)); [auto|congruence].
    - right. destruct (repair_spec closer (List.length d) d Od (Nat.le_refl _)) as (ps & R & P). exists ps. rewrite R. split; auto. split.
      + intros ->. cbn in B. destruct d; [|discriminate]. cbn in P. apply Permutation_sym, Permutation_nil in P.
        destruct ps as [|p ps]; [auto|discriminate].
      + intros z. unfold ends_count. now rewrite (cnt_perm z _ _ P), C.
  Qed.

  Lemma make_rings_spec W : sorts srt ->
    let res := make_rings mkring srt closer attempt_repair (map wi_new W) in
    (res = Throw EDanglingEnds /\ attempt_repair = false /\ exists z, Nat.odd (ends_count W z) = true) \/
    (exists V ws rings,
       (attempt_repair = false -> V = []) /\ (forall z, ends_count V z = (ends_count W z mod 2)%nat) /\
       map wi_way ws = W ++ V /\ J mkring ws rings /\
       (forall i, first_left ws rings i -> no_ring mkring ws rings i) /\
       res = match rings with [] => Throw ENoRings | _ => Ok (ws, rings) end).
  Proof.
    intros Hs res. unfold res, make_rings.
    assert (W0 : map wi_way (map wi_new W) = W) by (rewrite map_map; apply map_id).
    destruct (ring_loop_spec mkring (S (List.length (map wi_new W))) (map wi_new W) [] (J_start mkring W)) as (ws1 & r1 & R1 & J1 & Hw1 & _).
    { pose proof (nfree_le (map wi_new W)). lia. }
    rewrite R1. cbn [obind app] in *. rewrite W0 in Hw1.
    destruct (find_and_repair_spec ws1 r1 Hs J1) as [(R2 & Hn & z & O)|(V & R2 & Hn & C)].
    - left. rewrite R2. cbn [obind negb]. rewrite Hw1 in O. eauto.
    - right. rewrite R2. cbn [obind negb]. rewrite Hw1 in C.
      destruct (J_reset mkring ws1 r1 V J1) as (J2 & AF).
      destruct (ring_loop_spec mkring (S (List.length (reset ws1 ++ map wi_new V))) _ r1 J2) as (ws3 & more & R3 & J3 & Hw3 & Fr).
      { pose proof (nfree_le (reset ws1 ++ map wi_new V)). lia. }
      rewrite R3. cbn [obind]. exists V, ws3, (r1 ++ more). split; auto. split; auto. split.
      + rewrite Hw3, map_app, reset_ways, Hw1, map_map. f_equal. apply map_id.
      + split; auto.
  Qed.
End Whole.
