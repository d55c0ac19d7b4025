(** Proofs about Model/Builder.v: which ring is a hole of which. *)
From Verif Require Import Base.Prelude Model.Osm Model.Builder Spec.BuilderSpec.

Lemma fold_left_inv {A B} (P : A -> Prop) (f : A -> B -> A) l a :
  P a -> (forall a b, In b l -> P a -> P (f a b)) -> P (fold_left f l a).
Proof.
  revert a; induction l as [|b l IH]; intros a Ha H; cbn; auto. apply IH; [apply H; [now left|auto]|]. intros a' b' I. apply H. now right.
Qed.
Lemma filter_lt {A} (p q : A -> bool) l x :
  (forall y, In y l -> p y = true -> q y = true) -> In x l -> p x = false -> q x = true ->
  (List.length (filter p l) < List.length (filter q l))%nat.
Proof.
  intros H I Px Qx.
  assert (Le : forall l', (forall y, In y l' -> p y = true -> q y = true) -> (List.length (filter p l') <= List.length (filter q l'))%nat).
  { induction l' as [|y l' IH]; intros H'; auto. cbn. specialize (IH ltac:(intros; apply H'; [now right|auto])).
    destruct (p y) eqn:Py; [rewrite (H' y) by (auto; now left); cbn; lia|]. destruct (q y); cbn; lia. }
  induction l as [|y l IH]; [destruct I|]. cbn. destruct I as [->|I].
  - rewrite Px, Qx. cbn. specialize (Le l ltac:(intros; apply H; [now right|auto])). lia.
  - specialize (IH ltac:(intros; apply H; [now right|auto]) I).
    destruct (p y) eqn:Py; [rewrite (H y) by (auto; now left); cbn; lia|]. destruct (q y); cbn; lia.
Qed.

Section Nest.
  Variable con : nat -> nat -> bool.
  Hypothesis Hc : proper_nesting con.
  Notation sc := (inside con).
  Lemma sc_asym i j : sc i j = true -> sc j i = false.
  Proof.
    unfold inside. rewrite andb_true_iff, negb_true_iff. intros [D H]. apply Nat.eqb_neq in D.
    destruct Hc as [Ha _]. rewrite (Ha _ _ D H). apply andb_false_r.
  Qed.
  Lemma sc_irrefl i : sc i i = false.
  Proof. unfold inside. now rewrite Nat.eqb_refl. Qed.
  Lemma sc_con i j : i <> j -> sc i j = con i j.
  Proof. intros D. unfold inside. destruct (Nat.eqb_spec i j); [congruence|reflexivity]. Qed.
  Lemma sc_trans i j k : sc i j = true -> sc j k = true -> sc i k = true.
  Proof.
    intros H1 H2. assert (D : i <> k). { intros ->. apply sc_asym in H1. congruence. }
    rewrite sc_con by auto. destruct Hc as [_ Ht]. apply (Ht i j k).
    - unfold inside in H1. now apply andb_true_iff in H1.
    - unfold inside in H2. now apply andb_true_iff in H2.
  Qed.

  (* ---- the first loops ---- *)
  Definition mem (x : nat) (l : list nat) : bool := existsb (Nat.eqb x) l.
  Lemma mem_iff x l : mem x l = true <-> In x l.
  Proof.
    unfold mem. rewrite existsb_exists. split; [intros (y & I & E); apply Nat.eqb_eq in E; now subst|].
    intros I. exists x. now rewrite Nat.eqb_refl.
  Qed.
  Lemma mem_not x l : ~ In x l -> mem x l = false.
  Proof. intros H. destruct (mem x l) eqn:E; auto. apply mem_iff in E. tauto. Qed.
  Lemma row_spec i : forall js c ev,
    NoDup js -> (forall y, In y js -> c i y = false) -> (forall y, c y i = true -> sc y i = true) ->
    (forall x y, fst (contains_row con i js (c, ev)) x y = if (x =? i)%nat && mem y js then sc i y else c x y) /\
    (forall y, snd (contains_row con i js (c, ev)) y = if mem y js then xorb (ev y) (sc i y) else ev y).
  Proof.
    induction js as [|j js IH]; intros c ev N H0 H1.
    - cbn. split; auto. intros x y. now rewrite andb_false_r.
    - inversion N as [|? ? Nj N']; subst.
      (* effect of one step *)
      set (st := if (i =? j)%nat then (c, ev) else if c j i then (c, ev) else
                 let c' := mset c i j (con i j) in (c', bset ev j (xorb (ev j) (c' i j)))).
      assert (S1 : forall x y, fst st x y = if (x =? i)%nat && (y =? j)%nat then sc i j else c x y).
      { intros x y. unfold st. destruct (Nat.eqb_spec i j) as [E|E].
        - cbn. destruct (Nat.eqb_spec x i) as [Ex|], (Nat.eqb_spec y j) as [Ey|]; cbn; auto. subst. rewrite sc_irrefl. apply H0. now left.
        - destruct (c j i) eqn:Cj.
          + cbn. destruct (Nat.eqb_spec x i) as [Ex|], (Nat.eqb_spec y j) as [Ey|]; cbn; auto. subst.
            rewrite (sc_asym _ _ (H1 _ Cj)). apply H0. now left.
          + cbn. unfold mset. rewrite sc_con by auto. reflexivity. }
      assert (S2 : forall y, snd st y = if (y =? j)%nat then xorb (ev y) (sc i y) else ev y).
      { intros y. unfold st. destruct (Nat.eqb_spec i j) as [E|E].
        - cbn. destruct (Nat.eqb_spec y j) as [Ey|]; auto. subst. now rewrite sc_irrefl, xorb_false_r.
        - destruct (c j i) eqn:Cj.
          + cbn. destruct (Nat.eqb_spec y j) as [Ey|]; auto. subst. now rewrite (sc_asym _ _ (H1 _ Cj)), xorb_false_r.
          + cbn. unfold bset, mset. rewrite !Nat.eqb_refl. cbn. destruct (Nat.eqb_spec y j) as [Ey|]; auto. subst. now rewrite sc_con. }
      change (contains_row con i (j :: js) (c, ev)) with (contains_row con i js st).
      destruct st as [c1 ev1] eqn:Est. cbn [fst snd] in S1, S2.
      destruct (IH c1 ev1 N') as [A B].
      + intros y Iy. rewrite S1. destruct (Nat.eqb_spec y j) as [->|]; [tauto|]. rewrite andb_false_r. apply H0. now right.
      + intros y. rewrite S1. destruct (Nat.eqb_spec y i) as [->|D]; cbn; auto.
        destruct (Nat.eqb_spec i j) as [<-|]; auto.
      + split.
        * intros x y. rewrite A, S1. cbn [mem existsb]. fold (mem y js).
          destruct (Nat.eqb_spec x i) as [->|]; cbn; auto. destruct (Nat.eqb_spec y j) as [->|]; cbn; auto.
          now destruct (mem j js).
        * intros y. rewrite B, S2. cbn [mem existsb]. fold (mem y js).
          destruct (Nat.eqb_spec y j) as [->|]; cbn; auto. now rewrite (mem_not _ _ Nj).
  Qed.
  Lemma contains_all_spec n : let '(c, ev) := contains_all con n in
    (forall x y, c x y = (x <? n)%nat && (y <? n)%nat && sc x y) /\
    (forall y, (y < n)%nat -> ev y = Nat.even (depth con n y)).
  Proof.
    unfold contains_all.
    assert (H : forall m, (m <= n)%nat ->
      let '(c, ev) := fold_left (fun st i => contains_row con i (seq 0 n) st) (seq 0 m) (fun _ _ => false, fun _ => true) in
      (forall x y, c x y = (x <? m)%nat && (y <? n)%nat && sc x y) /\
      (forall y, (y < n)%nat -> ev y = Nat.even (depth con m y))).
    { induction m as [|m IH]; intros L; [split; auto|].
      rewrite seq_S, fold_left_app. cbn [Nat.add fold_left].
      specialize (IH ltac:(lia)).
      destruct (fold_left _ (seq 0 m) _) as [c ev]. destruct IH as [A B].
      destruct (row_spec m (seq 0 n) c ev (seq_NoDup _ _)) as [A' B'].
      - intros y _. rewrite A, Nat.ltb_irrefl. reflexivity.
      - intros y. rewrite A. intros X. now apply andb_true_iff in X as [_ X].
      - rewrite (surjective_pairing (contains_row con m (seq 0 n) (c, ev))).
        assert (M : forall y, mem y (seq 0 n) = (y <? n)%nat).
        { intros y. destruct (Nat.ltb_spec y n); [apply mem_iff, in_seq; lia|apply mem_not; rewrite in_seq; lia]. }
        split.
        + intros x y. rewrite A', A, M. destruct (Nat.eqb_spec x m) as [->|D]; cbn [andb].
          * rewrite (proj2 (Nat.ltb_lt m (S m))), (proj2 (Nat.ltb_ge m m)) by lia. cbn. now destruct (y <? n)%nat.
          * replace (x <? S m)%nat with (x <? m)%nat; auto. destruct (Nat.ltb_spec x m), (Nat.ltb_spec x (S m)); auto; lia.
        + intros y Hy. rewrite B', M, (proj2 (Nat.ltb_lt y n)), (B y) by lia. unfold depth.
          rewrite seq_S, filter_app, app_length, Nat.even_add. cbn. destruct (sc m y); cbn; now destruct (Nat.even _). }
    specialize (H n (Nat.le_refl n)). exact H.
  Qed.

  (* ---- thinning ---- *)
  Variable n : nat.
  Definition within (c : matrix) : Prop := forall x y, c x y = true -> (x < n)%nat /\ (y < n)%nat /\ sc x y = true.
  Definition keeps_direct (c : matrix) : Prop := forall x y, (x < n)%nat -> (y < n)%nat -> direct con n x y -> c x y = true.
  Lemma intermediary_true c i j : intermediary c i j (seq 0 n) = true <-> exists k, (k < n)%nat /\ k <> i /\ k <> j /\ c i k = true /\ c k j = true.
  Proof.
    unfold intermediary. rewrite existsb_exists. split.
    - intros (k & I & E). apply in_seq in I. rewrite !andb_true_iff, !negb_true_iff in E. destruct E as [[E1 E2] [E3 E4]].
      apply Nat.eqb_neq in E1, E2. exists k. repeat split; auto. lia.
    - intros (k & L & D1 & D2 & E1 & E2). exists k. rewrite in_seq, E1, E2. split; [lia|].
      apply Nat.eqb_neq in D1, D2. now rewrite D1, D2.
  Qed.
  Lemma thin_cell_eq c i j x y : thin_cell n i c j x y = if (x =? i)%nat && (y =? j)%nat then c i j && negb (intermediary c i j (seq 0 n)) else c x y.
  Proof.
    unfold thin_cell. destruct (c i j) eqn:E.
    - destruct (intermediary c i j (seq 0 n)).
      + unfold mset. cbn. reflexivity.
      + destruct (Nat.eqb_spec x i) as [->|], (Nat.eqb_spec y j) as [->|]; cbn; auto.
    - destruct (Nat.eqb_spec x i) as [->|], (Nat.eqb_spec y j) as [->|]; cbn; auto.
  Qed.
  Lemma thin_cell_inv c i j : within c -> keeps_direct c -> within (thin_cell n i c j) /\ keeps_direct (thin_cell n i c j).
  Proof.
    intros Wi Kd. split.
    - intros x y. rewrite thin_cell_eq. destruct (Nat.eqb_spec x i) as [->|], (Nat.eqb_spec y j) as [->|]; cbn; auto.
      intros H. apply andb_true_iff in H as [H _]. auto.
    - intros x y Lx Ly D. rewrite thin_cell_eq. destruct (Nat.eqb_spec x i) as [->|], (Nat.eqb_spec y j) as [->|]; cbn; auto.
      rewrite (Kd i j Lx Ly D). cbn. apply negb_true_iff. destruct (intermediary c i j (seq 0 n)) eqn:E; auto.
      apply intermediary_true in E as (k & Lk & _ & _ & H1 & H2). destruct D as [_ D]. exfalso. eapply (D k); auto; now apply Wi.
  Qed.
  Lemma thin_inv c : within c -> keeps_direct c -> within (thin n c) /\ keeps_direct (thin n c).
  Proof.
    intros Wi Kd. unfold thin. apply (fold_left_inv (fun c => within c /\ keeps_direct c)); auto.
    intros c1 i _ H. apply (fold_left_inv (fun c => within c /\ keeps_direct c)); auto.
    intros c2 j _ [H1 H2]. now apply thin_cell_inv.
  Qed.

  (** rings in an order where containers come first *)
  Notation outside_in := (outside_in con n).
  Lemma direct_child (Ho : outside_in) i j k : (i < n)%nat -> (j < n)%nat -> (k < n)%nat -> sc i k = true -> sc k j = true ->
    exists m, (m < n)%nat /\ direct con n i m /\ sc m j = true.
  Proof.
    intros Li Lj. induction k as [k IH] using lt_wf_ind. intros Lk H1 H2.
    destruct (existsb (fun m => sc i m && sc m k) (seq 0 n)) eqn:E.
    - apply existsb_exists in E as (m & I & E). apply in_seq in I. apply andb_true_iff in E as [E1 E2].
      apply (IH m); auto; [apply Ho; auto; lia|lia|]. eapply sc_trans; eauto.
    - exists k. split; auto. split; auto. split; auto. intros m Lm E1 E2.
      assert (X : existsb (fun m => sc i m && sc m k) (seq 0 n) = true).
      { apply existsb_exists. exists m. rewrite in_seq, E1, E2. split; auto. lia. }
      congruence.
  Qed.
  Lemma thin_ordered c0 (Ho : outside_in) :
    within c0 -> (forall x y, (x < n)%nat -> (y < n)%nat -> c0 x y = sc x y) ->
    forall x y, thin n c0 x y = true -> direct con n x y.
  Proof.
    intros W0 E0. unfold thin.
    (* rows below m are done, the others untouched *)
    set (Done := fun m c => within c /\ keeps_direct c /\ (forall x y, (m <= x)%nat -> c x y = c0 x y) /\ (forall x y, (x < m)%nat -> c x y = true -> direct con n x y)).
    assert (H : forall m, (m <= n)%nat -> Done m (fold_left (fun c i => fold_left (thin_cell n i) (seq 0 n) c) (seq 0 m) c0)).
    { induction m as [|m IH]; intros L.
      - split; auto. split; [intros x y Lx Ly D; rewrite E0 by auto; apply D|]. split; auto. intros; lia.
      - rewrite seq_S, fold_left_app. cbn [Nat.add fold_left]. specialize (IH ltac:(lia)).
        match type of IH with Done m ?t => set (c := t) in * end. clearbody c. destruct IH as (Wi & Kd & Un & Dn).
        (* cells of row m below l are done *)
        assert (R : forall l, (l <= n)%nat -> let c' := fold_left (thin_cell n m) (seq 0 l) c in
          within c' /\ keeps_direct c' /\ (forall x y, x <> m -> c' x y = c x y) /\
          (forall y, (l <= y)%nat -> c' m y = c m y) /\ (forall y, (y < l)%nat -> c' m y = true -> direct con n m y)).
        { induction l as [|l IHl]; intros Ll; cbn zeta; [split; auto; split; auto; split; auto; split; auto; intros; lia|].
          rewrite seq_S, fold_left_app. cbn [Nat.add fold_left]. specialize (IHl ltac:(lia)). cbn zeta in IHl.
          match type of IHl with within ?t /\ _ => set (c1 := t) in * end. clearbody c1. destruct IHl as (Wi1 & Kd1 & Ot & Un1 & Dn1).
          destruct (thin_cell_inv c1 m l Wi1 Kd1) as [Wi2 Kd2]. split; auto. split; auto. split; [|split].
          - intros x y D. rewrite thin_cell_eq. destruct (Nat.eqb_spec x m); [lia|]. cbn. auto.
          - intros y Ly. rewrite thin_cell_eq. destruct (Nat.eqb_spec y l); [lia|]. rewrite andb_false_r. apply Un1. lia.
          - intros y Ly Hy. destruct (Nat.eq_dec y l) as [->|D].
            + destruct (Wi2 _ _ Hy) as (Lm & Ll' & Sm). rewrite thin_cell_eq, !Nat.eqb_refl in Hy. cbn in Hy.
              apply andb_true_iff in Hy as [Hy1 Hy2]. apply negb_true_iff in Hy2. split; auto. intros k Lk K1 K2.
              destruct (direct_child Ho m l k Lm Ll' Lk K1 K2) as (q & Lq & Dq & Sq).
              assert (X : intermediary c1 m l (seq 0 n) = true); [|congruence].
              apply intermediary_true. exists q. pose proof Dq as [Sq1 _]. split; auto.
              split; [intros ->; rewrite sc_irrefl in Sq1; congruence|]. split; [intros ->; rewrite sc_irrefl in Sq; congruence|].
              split; [now apply Kd1|]. pose proof (Ho _ _ Lm Lq Sq1). rewrite Ot, Un, E0 by lia. exact Sq.
            + apply Dn1; [lia|]. rewrite thin_cell_eq in Hy. destruct (Nat.eqb_spec y l); [lia|]. now rewrite andb_false_r in Hy. }
        specialize (R n (Nat.le_refl n)). cbn zeta in R. destruct R as (Wi2 & Kd2 & Ot & _ & Dn2).
        split; auto. split; auto. split.
        + intros x y Lx. rewrite Ot by lia. apply Un. lia.
        + intros x y Lx Hy. destruct (Nat.eq_dec x m) as [->|D].
          * apply Dn2; auto. now apply Wi2 in Hy.
          * rewrite Ot in Hy by auto. apply Dn; auto. lia. }
    intros x y Hy. destruct (H n (Nat.le_refl n)) as (Wi & _ & _ & Dn). apply Dn; auto. now apply Wi in Hy.
  Qed.

  (* ---- results ---- *)
  Lemma depth_lt i k : (i < n)%nat -> sc i k = true -> (depth con n i < depth con n k)%nat.
  Proof.
    intros Li H. unfold depth. apply (filter_lt _ _ _ i).
    - intros y _ Hy. eapply sc_trans; eauto.
    - apply in_seq. lia.
    - apply sc_irrefl.
    - auto.
  Qed.
  Lemma depth_le j : (depth con n j <= n)%nat.
  Proof. unfold depth. rewrite <- (seq_length n 0) at 2. clear Hc. induction (seq 0 n); cbn; auto. destruct (inside con a j); cbn; lia. Qed.
  Lemma direct_container i j : (i < n)%nat -> sc i j = true -> exists m, (m < n)%nat /\ direct con n m j.
  Proof.
    remember (n - depth con n i)%nat as d. revert i Heqd. induction d as [d IH] using lt_wf_ind. intros i -> Li H.
    destruct (existsb (fun m => sc i m && sc m j) (seq 0 n)) eqn:E.
    - apply existsb_exists in E as (m & I & E). apply in_seq in I. apply andb_true_iff in E as [E1 E2].
      apply (IH (n - depth con n m)%nat) with (i := m); auto; [|lia].
      pose proof (depth_lt i m Li E1). pose proof (depth_le m). lia.
    - exists i. split; auto. split; auto. intros m Lm E1 E2.
      assert (X : existsb (fun m => sc i m && sc m j) (seq 0 n) = true).
      { apply existsb_exists. exists m. rewrite in_seq, E1, E2. split; auto. lia. }
      congruence.
  Qed.
  Lemma container_some c ev j : (exists i, (i < n)%nat /\ c i j = true) -> ev j = false -> container_of n c ev j <> None.
  Proof.
    intros (i & Li & Ci) Ev. unfold container_of. rewrite Ev. cbn.
    assert (H : forall l r, (In i l \/ r <> None) -> fold_left (fun r i => if c i j && true then Some i else r) l r <> None).
    { induction l as [|x l IH]; intros r [I|R]; [destruct I|exact R| |]; cbn.
      - apply IH. destruct I as [->|I]; [right; rewrite Ci; cbn; congruence|auto].
      - apply IH. right. destruct (c x j && true); congruence. }
    apply H. left. apply in_seq. lia.
  Qed.
  Lemma container_sound c ev j i : container_of n c ev j = Some i -> (i < n)%nat /\ c i j = true /\ ev j = false.
  Proof.
    unfold container_of.
    set (P := fun r : option nat => forall i, r = Some i -> (i < n)%nat /\ c i j = true /\ ev j = false).
    assert (H : P (fold_left (fun r i => if c i j && negb (ev j) then Some i else r) (seq 0 n) None)); [|apply H].
    apply fold_left_inv; unfold P; [congruence|]. intros r x I Hr y.
    destruct (c x j) eqn:E, (ev j) eqn:F; cbn; auto. intros X. injection X as <-. apply in_seq in I. repeat split; auto. lia.
  Qed.
  Lemma inner_iff c ev i j : In j (inner_of n c ev i) <-> (j < n)%nat /\ c i j = true /\ ev j = false.
  Proof.
    unfold inner_of. rewrite filter_In, in_seq, andb_true_iff, negb_true_iff. intuition lia.
  Qed.

  Lemma nesting_unfold : exists c ev, nesting con n = (inner_of n c ev, container_of n c ev) /\ within c /\ keeps_direct c /\
    (forall y, (y < n)%nat -> ev y = Nat.even (depth con n y)) /\
    (outside_in -> forall x y, c x y = true -> direct con n x y).
  Proof.
    unfold nesting. pose proof (contains_all_spec n) as H. destruct (contains_all con n) as [c ev]. destruct H as [A B].
    assert (Wi : within c).
    { intros x y. rewrite A. rewrite !andb_true_iff, !Nat.ltb_lt. tauto. }
    assert (E : forall x y, (x < n)%nat -> (y < n)%nat -> c x y = sc x y).
    { intros x y Lx Ly. rewrite A. apply Nat.ltb_lt in Lx, Ly. now rewrite Lx, Ly. }
    assert (Kd : keeps_direct c) by (intros x y Lx Ly D; rewrite E by auto; apply D).
    destruct (thin_inv c Wi Kd) as [Wi' Kd'].
    exists (thin n c), ev. split; auto. split; auto. split; auto. split; auto. intros Ho. now apply thin_ordered.
  Qed.

  Lemma nesting_holes j : (j < n)%nat -> (snd (nesting con n) j <> None <-> Nat.odd (depth con n j) = true).
  Proof.
    intros Lj. destruct nesting_unfold as (c & ev & -> & Wi & Kd & Ev & _). cbn [snd].
    rewrite <- Nat.negb_even, <- (Ev j Lj). split.
    - intros H. destruct (container_of n c ev j) as [i|] eqn:E; [|congruence]. apply container_sound in E as (_ & _ & ->). reflexivity.
    - intros H. apply negb_true_iff in H. apply container_some; auto.
      assert (D : depth con n j <> 0%nat). { rewrite (Ev j Lj) in H. intros X. rewrite X in H. discriminate. }
      unfold depth in D. destruct (filter (fun i => sc i j) (seq 0 n)) as [|i l] eqn:E; [now cbn in D|].
      assert (I : In i (filter (fun i => sc i j) (seq 0 n))) by (rewrite E; now left).
      apply filter_In in I as [I S1]. apply in_seq in I.
      destruct (direct_container i j ltac:(lia) S1) as (m & Lm & Dm). exists m. split; auto.
  Qed.
  Lemma nesting_inner i j : In j (fst (nesting con n) i) ->
    (i < n)%nat /\ (j < n)%nat /\ inside con i j = true /\ Nat.odd (depth con n j) = true.
  Proof.
    destruct nesting_unfold as (c & ev & -> & Wi & Kd & Ev & _). cbn [fst]. rewrite inner_iff. intros (Lj & Cij & E).
    destruct (Wi _ _ Cij) as (Li & _ & S1). repeat split; auto. rewrite <- Nat.negb_even, <- (Ev j Lj), E. reflexivity.
  Qed.
  Lemma nesting_direct i j : (i < n)%nat -> (j < n)%nat -> direct con n i j -> Nat.odd (depth con n j) = true -> In j (fst (nesting con n) i).
  Proof.
    intros Li Lj D O. destruct nesting_unfold as (c & ev & -> & Wi & Kd & Ev & _). cbn [fst]. rewrite inner_iff. split; auto. split; [now apply Kd|].
    rewrite (Ev j Lj). rewrite <- Nat.negb_even in O. now apply negb_true_iff in O.
  Qed.
  Lemma nesting_container i j : snd (nesting con n) j = Some i -> (j < n)%nat -> In j (fst (nesting con n) i).
  Proof.
    destruct nesting_unfold as (c & ev & -> & Wi & Kd & Ev & _). cbn [fst snd]. intros H Lj. apply container_sound in H as (Li & Ci & E).
    apply inner_iff. auto.
  Qed.
  Lemma depth_one i j k : depth con n j = 1%nat -> (i < n)%nat -> (k < n)%nat -> sc i j = true -> sc k j = true -> i = k.
  Proof.
    unfold depth. intros D Li Lk S1 S2.
    assert (I1 : In i (filter (fun i => sc i j) (seq 0 n))) by (apply filter_In; split; auto; apply in_seq; lia).
    assert (I2 : In k (filter (fun i => sc i j) (seq 0 n))) by (apply filter_In; split; auto; apply in_seq; lia).
    destruct (filter _ _) as [|a [|b l]]; cbn in D; try discriminate. destruct I1 as [->|[]], I2 as [->|[]]. reflexivity.
  Qed.
  Lemma nesting_exact : ((forall j, (j < n)%nat -> (depth con n j <= 2)%nat) \/ outside_in) ->
    forall i j, (i < n)%nat -> (j < n)%nat -> (In j (fst (nesting con n) i) <-> direct con n i j /\ Nat.odd (depth con n j) = true).
  Proof.
    intros H i j Li Lj. split; [|intros [D O]; now apply nesting_direct].
    intros I. pose proof (nesting_inner _ _ I) as (_ & _ & S1 & O). split; auto. destruct H as [H|Ho].
    - specialize (H j Lj). assert (D1 : depth con n j = 1%nat).
      { destruct (depth con n j) as [|[|[|]]]; auto; try discriminate; lia. }
      split; auto. intros k Lk K1 K2. pose proof (depth_one i j k D1 Li Lk S1 K2) as ->. rewrite sc_irrefl in K1. discriminate.
    - destruct nesting_unfold as (c & ev & E & _ & _ & _ & T). rewrite E in I. cbn [fst] in I. apply inner_iff in I as (_ & Ci & _). now apply T.
  Qed.
End Nest.
