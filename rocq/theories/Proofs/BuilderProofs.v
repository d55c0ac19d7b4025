(** Proofs about Model/Builder.v: the search for rings. *)
From Coq Require Import Sorting.Permutation.
From Verif Require Import Base.Prelude Model.Osm Model.Handler Model.Assembler Model.Builder
  Spec.BuilderSpec Proofs.HandlerProofs Proofs.AssemblerProofs Proofs.Assembler2Proofs.

(* ---- ways and chains ---- *)
Lemma starts_fwd w : starts_at (trace (w, false)) (firstnode w).
Proof. unfold trace, firstnode, bfront, bnodes; cbn. now exists (b_head w), (b_tail w). Qed.
Lemma bnodes_last w : exists r, bnodes w = r ++ [bback w].
Proof.
  unfold bnodes, bback. destruct (b_tail w) as [|y l] using rev_ind; [now exists []|].
  clear. exists (b_head w :: l). rewrite last_last. reflexivity.
Qed.
Lemma ends_fwd w : ends_at (trace (w, false)) (lastnode w).
Proof. unfold trace; cbn. destruct (bnodes_last w) as [r E]. now exists r, (bback w). Qed.
Lemma starts_inv w : starts_at (trace (w, true)) (lastnode w).
Proof.
  unfold trace; cbn [fst snd]. destruct (bnodes_last w) as [r E]. rewrite E, rev_app_distr. now exists (bback w), (rev r).
Qed.
Lemma ends_inv w : ends_at (trace (w, true)) (firstnode w).
Proof. unfold trace; cbn. now exists (rev (b_tail w)), (b_head w). Qed.

Lemma walk_chain W first ext : forall cur st, walk W first cur ext -> spells W ext st -> chain cur st first.
Proof.
  induction ext as [|[i inv] ext IH]; intros cur st Wk Sp.
  - cbn in Wk. subst. inversion Sp; subst. constructor.
  - inversion Sp as [|? [w b] ? st' [E1 E2] Sp' ]; subst. cbn in E1, E2. subst b.
    cbn [walk] in Wk. destruct Wk as (_ & w' & E & K). rewrite E1 in E; injection E as <-.
    destruct inv.
    + destruct K as (_ & <- & K). econstructor; [apply starts_inv|apply ends_inv|]. eapply IH; eauto.
    + destruct K as (<- & K). econstructor; [apply starts_fwd|apply ends_fwd|]. eapply IH; eauto.
Qed.

(* ---- lists ---- *)
Lemma Forall2_nth {A B} (R : A -> B -> Prop) l l' :
  List.length l = List.length l' ->
  (forall k a b, nth_error l k = Some a -> nth_error l' k = Some b -> R a b) -> Forall2 R l l'.
Proof.
  revert l'; induction l as [|x l IH]; intros [|y l'] L H; try discriminate; constructor.
  - now apply (H 0%nat).
  - apply IH; [cbn in L; lia|]. intros k a b Ha Hb. now apply (H (S k)).
Qed.
Lemma Forall2_length {A B} (R : A -> B -> Prop) l l' : Forall2 R l l' -> List.length l = List.length l'.
Proof. induction 1; cbn; auto. Qed.
Lemma Forall2_get {A B} (R : A -> B -> Prop) l l' k a :
  Forall2 R l l' -> nth_error l k = Some a -> exists b, nth_error l' k = Some b /\ R a b.
Proof. intros F; revert k; induction F; intros [|k] H1; cbn in *; try discriminate; [injection H1 as <-; eauto|eauto]. Qed.
Lemma map_set_nth_same {A B} (f : A -> B) n x l y :
  nth_error l n = Some y -> f x = f y -> map f (set_nth n x l) = map f l.
Proof.
  revert n; induction l as [|z l IH]; intros [|n] E F; cbn in *; try discriminate; auto.
  - injection E as ->. now rewrite F.
  - f_equal. now apply IH.
Qed.
Lemma nth_error_ways ws i w : nth_error ws i = Some w -> nth_error (map wi_way ws) i = Some (wi_way w).
Proof. intros E. now apply map_nth_error. Qed.

(* ---- free ways ---- *)
Definition is_free (w : winfo) : bool := wi_used w <? 0.
Definition free (ws : list winfo) (i : nat) : Prop := exists w, nth_error ws i = Some w /\ wi_used w < 0.
Definition nfree (ws : list winfo) : nat := List.length (filter is_free ws).
Lemma nfree_le ws : (nfree ws <= List.length ws)%nat.
Proof. unfold nfree. induction ws; cbn; [lia|]. destruct (is_free a); cbn; lia. Qed.
Lemma nfree_set ws i w w' :
  nth_error ws i = Some w -> wi_used w < 0 -> 0 <= wi_used w' -> nfree ws = S (nfree (set_nth i w' ws)).
Proof.
  unfold nfree. intros E U U'. revert i E; induction ws as [|x ws IH]; intros [|i] E; cbn in *; try discriminate.
  - injection E as ->. assert (is_free w = true) as -> by (unfold is_free; now apply Z.ltb_lt).
    assert (is_free w' = false) as -> by (unfold is_free; now apply Z.ltb_ge). reflexivity.
  - specialize (IH _ E). destruct (is_free x); cbn; rewrite IH; auto.
Qed.

(** the same up to bookkeeping of free ways *)
Definition agree1 (w w' : winfo) : Prop :=
  wi_way w' = wi_way w /\ wi_used w' = wi_used w /\ (0 <= wi_used w -> w' = w).
Definition agree (ws ws' : list winfo) : Prop := Forall2 agree1 ws ws'.
Lemma agree_refl ws : agree ws ws.
Proof. induction ws; constructor; auto. now repeat split. Qed.
Lemma agree1_trans a b c : agree1 a b -> agree1 b c -> agree1 a c.
Proof.
  intros (A1 & A2 & A3) (B1 & B2 & B3). split; [congruence|split; [congruence|]].
  intros H. rewrite <- (A3 H). apply B3. lia.
Qed.
Lemma agree_trans a b c : agree a b -> agree b c -> agree a c.
Proof.
  unfold agree. intros F; revert c; induction F; intros c F2; inversion F2; subst; constructor; eauto using agree1_trans.
Qed.
Lemma agree_length a b : agree a b -> List.length a = List.length b.
Proof. apply Forall2_length. Qed.
Lemma agree_ways a b : agree a b -> map wi_way b = map wi_way a.
Proof. induction 1 as [|? ? ? ? (H & _)]; cbn; congruence. Qed.
Lemma agree_get a b i w : agree a b -> nth_error a i = Some w -> exists w', nth_error b i = Some w' /\ agree1 w w'.
Proof. intros F E. eapply Forall2_get in F; eauto. Qed.
Lemma agree_sym1 w w' : agree1 w w' -> agree1 w' w.
Proof. intros (H1 & H2 & H3). split; [congruence|split; [congruence|]]. intros. symmetry. apply H3. lia. Qed.
Lemma agree_sym a b : agree a b -> agree b a.
Proof. induction 1; constructor; auto using agree_sym1. Qed.
Lemma agree_free a b i : agree a b -> free a i -> free b i.
Proof. intros F (w & E & U). destruct (agree_get _ _ _ _ F E) as (w' & E' & (_ & U' & _)). exists w'. split; auto. lia. Qed.
Lemma agree_nfree a b : agree a b -> nfree b = nfree a.
Proof.
  unfold nfree. induction 1 as [|w w' l l' (_ & U & _) F IH]; cbn; auto. assert (is_free w' = is_free w) as -> by (unfold is_free; now rewrite U).
  destruct (is_free w); cbn; auto.
Qed.
Lemma agree_set i w0 w1 w2 ws ws1 :
  nth_error ws i = Some w0 -> agree1 w0 w2 -> agree (set_nth i w1 ws) ws1 -> agree ws (set_nth i w2 ws1).
Proof.
  intros E A F. pose proof (agree_length _ _ F) as L. rewrite set_nth_length in L.
  apply Forall2_nth; [now rewrite set_nth_length|].
  intros k a b Ha Hb. rewrite set_nth_get in Hb. destruct (Nat.eqb_spec k i) as [->|D].
  - destruct (_ <? _)%nat; [|discriminate]. injection Hb as <-. congruence.
  - assert (Ha' : nth_error (set_nth i w1 ws) k = Some a).
    { rewrite set_nth_get. destruct (Nat.eqb_spec k i); [lia|auto]. }
    destruct (agree_get _ _ _ _ F Ha') as (b' & Hb' & Ag). congruence.
Qed.

(* ---- ring_is_complete ---- *)
Section Search.
  Context {G : Type}.
  Variable mkring : list step -> option G.

  (** the ways with used = rc are those of the path, numbered in its order *)
  Definition Inv (ws : list winfo) (path : list (nat * bool)) (rc : Z) : Prop :=
    NoDup (map fst path) /\
    (forall k i b, nth_error path k = Some (i, b) ->
       exists w, nth_error ws i = Some w /\ wi_used w = rc /\ wi_seq w = k /\ wi_inv w = b) /\
    (forall i w, nth_error ws i = Some w -> wi_used w = rc -> In i (map fst path)).

  Lemma Inv_agree ws ws' path rc : 0 <= rc -> agree ws ws' -> Inv ws path rc -> Inv ws' path rc.
  Proof.
    intros Hrc A (N & I1 & I2). split; auto. split.
    - intros k i b E. destruct (I1 _ _ _ E) as (w & Ew & U & Sq & Iv).
      destruct (agree_get _ _ _ _ A Ew) as (w' & Ew' & (_ & _ & H)). rewrite H in Ew' by lia. eauto 8.
    - intros i w E U. destruct (agree_get _ _ _ _ (agree_sym _ _ A) E) as (w' & Ew' & (_ & H & _)).
      apply (I2 _ _ Ew'). lia.
  Qed.
  Lemma Inv_spells ws path rc : Inv ws path rc -> exists st, spells (map wi_way ws) path st.
  Proof.
    intros (_ & I1 & _). unfold spells.
    assert (H : forall p k0, (forall k, nth_error p k = nth_error path (k0 + k)) ->
       exists st, Forall2 (fun (a : nat * bool) (s : step) => nth_error (map wi_way ws) (fst a) = Some (fst s) /\ snd a = snd s) p st).
    { induction p as [|[i b] p IH]; intros k0 H; [exists []; constructor|].
      destruct (I1 k0 i b) as (w & Ew & _); [rewrite <- (Nat.add_0_r k0), <- H; reflexivity|].
      destruct (IH (S k0)) as [st F].
      { intros k. specialize (H (S k)). cbn in H. rewrite H. f_equal. lia. }
      exists ((wi_way w, b) :: st). constructor; auto. cbn. split; auto. now apply nth_error_ways. }
    apply (H path 0%nat). reflexivity.
  Qed.
  Lemma spells_det W p st1 st2 : spells W p st1 -> spells W p st2 -> st1 = st2.
  Proof.
    unfold spells. intros F; revert st2; induction F as [|a [w b] p l [E1 E2] F IH]; intros st2 F2; inversion F2 as [|? [w' b'] ? l2 [E1' E2'] F2']; subst; auto.
    cbn in *. f_equal; [congruence|]. auto.
  Qed.

  Lemma place_spec ws rc : forall acc,
    (forall w, In w ws -> wi_used w = rc -> (wi_seq w < List.length acc)%nat) ->
    exists acc', place ws rc acc = Ok acc' /\ List.length acc' = List.length acc /\
      forall k, (k < List.length acc)%nat ->
        (exists w, In w ws /\ wi_used w = rc /\ wi_seq w = k /\ nth_error acc' k = Some (Some w)) \/
        ((forall w, In w ws -> wi_used w = rc -> wi_seq w <> k) /\ nth_error acc' k = nth_error acc k).
  Proof.
    induction ws as [|w ws IH]; intros acc H; cbn [place].
    - exists acc. split; [reflexivity|split; [reflexivity|]]. intros k Hk. right. split; [intros ? []|reflexivity].
    - destruct (Z.eqb_spec (wi_used w) rc) as [U|U].
      + pose proof (H w (or_introl eq_refl) U) as Hs. destruct (Nat.ltb_spec (wi_seq w) (List.length acc)); [|lia].
        destruct (IH (set_nth (wi_seq w) (Some w) acc)) as (acc' & P & L & Q).
        { intros v Iv Uv. rewrite set_nth_length. apply H; [now right|auto]. }
        rewrite set_nth_length in L, Q. exists acc'. split; auto. split; auto. intros k Hk.
        destruct (Q k Hk) as [(v & Iv & Uv & Sv & E)|(Nv & E)]; [left; exists v; cbn; auto|].
        rewrite set_nth_get in E. destruct (Nat.eqb_spec k (wi_seq w)) as [->|D].
        * left. exists w. destruct (_ <? _)%nat eqn:X; [|apply Nat.ltb_ge in X; lia]. cbn; auto.
        * right. split; auto. intros v [<-|Iv] Uv; auto.
      + destruct (IH acc) as (acc' & P & L & Q); [intros v Iv Uv; apply H; [now right|auto]|].
        exists acc'. split; auto. split; auto. intros k Hk.
        destruct (Q k Hk) as [(v & Iv & Uv & Sv & E)|(Nv & E)]; [left; exists v; cbn; auto|].
        right. split; auto. intros v [<-|Iv] Uv; auto.
  Qed.
  Lemma all_some_spec acc st :
    Forall2 (fun o (s : step) => exists w, o = Some w /\ wi_way w = fst s /\ wi_inv w = snd s) acc st -> all_some acc = Ok st.
  Proof.
    induction 1 as [|o [w0 b] acc st (w & -> & E1 & E2) F IH]; cbn; auto. rewrite IH. cbn. cbn in E1, E2. now subst.
  Qed.
  Lemma rev_nth_in {A B} (f : A -> B) l x : In x (map f l) -> exists k a, nth_error l k = Some a /\ f a = x.
  Proof. intros I. apply in_map_iff in I as (a & E & I). apply In_nth_error in I as [k H]. eauto. Qed.
  Lemma complete_spec ws path rc st :
    Inv ws path rc -> spells (map wi_way ws) path st ->
    ring_is_complete mkring ws rc (List.length path) =
      Ok (match mkring st with Some g => Some (mkRing g []) | None => None end).
  Proof.
    intros (N & I1 & I2) Sp. unfold ring_is_complete.
    assert (U : forall i w, nth_error ws i = Some w -> wi_used w = rc -> nth_error path (wi_seq w) = Some (i, wi_inv w)).
    { intros i w E Uw. destruct (rev_nth_in _ _ _ (I2 _ _ E Uw)) as (k & [i' b] & Ek & F). cbn in F. subst i'.
      destruct (I1 _ _ _ Ek) as (w' & E' & _ & Sq & Iv). rewrite E in E'. injection E' as <-. now rewrite Sq, Iv. }
    destruct (place_spec ws rc (repeat None (List.length path))) as (acc & P & L & Q).
    { intros w Iw Uw. rewrite repeat_length. apply In_nth_error in Iw as [i E].
      pose proof (U _ _ E Uw) as X. apply nth_error_Some. congruence. }
    rewrite P. cbn [obind]. rewrite repeat_length in L, Q.
    rewrite (all_some_spec acc st); [reflexivity|].
    apply Forall2_nth; [rewrite L; now apply Forall2_length in Sp|].
    intros k o s Ho Hs.
    assert (Hk : (k < List.length path)%nat) by (rewrite <- L; apply nth_error_Some; congruence).
    destruct (nth_error path k) as [[i b]|] eqn:Ek; [|apply nth_error_None in Ek; lia].
    destruct (Forall2_get _ _ _ _ _ Sp Ek) as (s' & Es' & X1 & X2). unfold step in *. rewrite Hs in Es'. injection Es' as <-. cbn in X1, X2.
    destruct (I1 _ _ _ Ek) as (w & E & Uw & Sq & Iv).
    destruct (Q k Hk) as [(v & Iv' & Uv & Sv & Ev)|(Nv & _)].
    - rewrite Ho in Ev. injection Ev as ->. exists v. split; auto.
      apply In_nth_error in Iv' as [j Ej]. pose proof (U _ _ Ej Uv) as Y. rewrite Sv, Ek in Y. injection Y as <- Y.
      apply nth_error_ways in Ej. rewrite X1 in Ej. injection Ej as ->. rewrite <- X2, Y. auto.
    - exfalso. eapply Nv; eauto using nth_error_In.
  Qed.

  (* ---- complete_ring ---- *)
  Definition none_spec (ws : list winfo) (path : list (nat * bool)) (first last : Z) (P : list (nat * bool) -> Prop) : Prop :=
    forall ext st, P ext -> walk (map wi_way ws) first last ext -> NoDup (map fst ext) -> Forall (free ws) (map fst ext) ->
      spells (map wi_way ws) (path ++ ext) st -> mkring st = None.
  Definition some_spec (ws : list winfo) (path : list (nat * bool)) (first last rc : Z) (ws' : list winfo) (g : G) (ext : list (nat * bool)) : Prop :=
    walk (map wi_way ws) first last ext /\ Forall (free ws) (map fst ext) /\
    (exists st, spells (map wi_way ws) (path ++ ext) st /\ mkring st = Some g) /\
    Inv ws' (path ++ ext) rc /\ map wi_way ws' = map wi_way ws /\
    forall i w, ~ In i (map fst ext) -> nth_error ws i = Some w -> exists w', nth_error ws' i = Some w' /\ agree1 w w'.

  Lemma Inv_extend ws path rc i w inv :
    Inv ws path rc -> 0 <= rc -> nth_error ws i = Some w -> wi_used w < 0 ->
    Inv (set_nth i (wi_set w rc (List.length path) inv) ws) (path ++ [(i, inv)]) rc.
  Proof.
    intros (N & I1 & I2) Hrc E U.
    assert (Li : (i < List.length ws)%nat) by (apply nth_error_Some; congruence).
    assert (Ni : ~ In i (map fst path)).
    { intros X. destruct (rev_nth_in _ _ _ X) as (k & [i' b] & Ek & F). cbn in F. subst i'.
      destruct (I1 _ _ _ Ek) as (w' & E' & U' & _). rewrite E in E'. injection E' as <-. lia. }
    split; [|split].
    - rewrite map_app. cbn. apply nodup_app; auto; [repeat constructor; auto|]. intros x H1 [<-|[]]. auto.
    - intros k j b Ek. destruct (lt_dec k (List.length path)) as [Hk|Hk].
      + rewrite nth_error_app1 in Ek by auto. destruct (I1 _ _ _ Ek) as (v & Ev & Uv & R).
        exists v. split; auto. rewrite set_nth_get. destruct (Nat.eqb_spec j i) as [->|]; auto.
        exfalso. apply Ni. apply nth_error_In in Ek. now apply (in_map fst) in Ek.
      + rewrite nth_error_app2 in Ek by lia. destruct (k - List.length path)%nat as [|m] eqn:Em.
        * cbn in Ek. injection Ek as <- <-. exists (wi_set w rc (List.length path) inv). rewrite set_nth_get, Nat.eqb_refl.
          destruct (Nat.ltb_spec i (List.length ws)); [|lia]. cbn. repeat split; auto. lia.
        * cbn in Ek. destruct m; discriminate.
    - intros j v Ev Uv. rewrite map_app, in_app_iff. rewrite set_nth_get in Ev. destruct (Nat.eqb_spec j i) as [->|]; [right; now left|].
      left. eauto.
  Qed.
  Lemma free_set ws i w' j : 0 <= wi_used w' -> free (set_nth i w' ws) j <-> free ws j /\ j <> i.
  Proof.
    intros U. unfold free. split.
    - intros (w & E & Uw). rewrite set_nth_get in E. destruct (Nat.eqb_spec j i) as [->|D].
      + destruct (_ <? _)%nat; [injection E as <-; lia|discriminate].
      + eauto.
    - intros ((w & E & Uw) & D). exists w. rewrite set_nth_get. destruct (Nat.eqb_spec j i); [lia|auto].
  Qed.
  Lemma none_agree ws ws' path first last P : agree ws ws' -> none_spec ws path first last P -> none_spec ws' path first last P.
  Proof.
    unfold none_spec. intros A H ext st. rewrite (agree_ways _ _ A). intros HP Wk N F Sp. eapply H; eauto.
    eapply Forall_impl; [|exact F]. intros j. apply agree_free. now apply agree_sym.
  Qed.
  Lemma some_agree ws0 ws path first last rc ws' g ext : agree ws0 ws -> some_spec ws path first last rc ws' g ext -> some_spec ws0 path first last rc ws' g ext.
  Proof.
    unfold some_spec. intros A. rewrite (agree_ways _ _ A). intros (H1 & H2 & H3 & H4 & H5 & H6). repeat split; auto.
    - eapply Forall_impl; [|exact H2]. intros j. apply agree_free. now apply agree_sym.
    - apply H4.
    - apply H4.
    - apply H4.
    - intros i w Ni E. destruct (agree_get _ _ _ _ A E) as (w1 & E1 & A1). destruct (H6 _ _ Ni E1) as (w2 & E2 & A2). eauto using agree1_trans.
  Qed.

  Notation cr_result fuel ws path first last rc :=
    ((exists ws', complete_ring mkring fuel ws first last rc (List.length path) = Ok (ws', None) /\ agree ws ws' /\
        none_spec ws path first last (fun _ => True)) \/
     (exists ws' g ext, complete_ring mkring fuel ws first last rc (List.length path) = Ok (ws', Some (mkRing g (rev (map fst ext)))) /\
        some_spec ws path first last rc ws' g ext)).

  Lemma cr_closed fuel ws path first rc :
    0 <= rc -> Inv ws path rc -> cr_result fuel ws path first first rc.
  Proof.
    intros Hrc HI.
    assert (E : complete_ring mkring fuel ws first first rc (List.length path) =
                let! r := ring_is_complete mkring ws rc (List.length path) in Ok (ws, r)).
    { destruct fuel; cbn [complete_ring]; now rewrite Z.eqb_refl. }
    rewrite E. destruct (Inv_spells _ _ _ HI) as [st Sp]. rewrite (complete_spec _ _ _ _ HI Sp). cbn [obind].
    destruct (mkring st) as [g|] eqn:Eg.
    - right. exists ws, g, []. split; auto. unfold some_spec. rewrite app_nil_r. cbn. split; auto. split; auto. split; eauto. split; auto. split; auto.
      intros i w _ Ei. exists w. split; auto. now repeat split.
    - left. exists ws. split; auto. split; [apply agree_refl|]. intros ext st' _ Wk _ _ Sp'.
      destruct ext as [|[? ?] ?]; [|now destruct Wk]. rewrite app_nil_r in Sp'. now rewrite (spells_det _ _ _ _ Sp' Sp).
  Qed.

  (** the loop of complete_ring, named *)
  Definition cr_loop (rec : list winfo -> Z -> outcome (list winfo * option (@ring G))) (last rc : Z) (sq : nat) :=
    fix loop (is_ : list nat) (ws : list winfo) : outcome (list winfo * option (@ring G)) :=
      match is_ with
      | [] => Ok (ws, None)
      | i :: rest =>
          match nth_error ws i with
          | None => UB
          | Some w =>
              if 0 <=? wi_used w then loop rest ws
              else
                let attempt (inv : bool) (next : Z) :=
                  let! (ws', res) := rec (set_nth i (wi_set w rc sq inv) ws) next in
                  match res with
                  | Some r => Ok (ws', Some (push_way r i))
                  | None =>
                      match nth_error ws' i with
                      | None => UB
                      | Some w' => loop rest (set_nth i (wi_use w' (wi_used w)) ws')
                      end
                  end in
                if firstnode (wi_way w) =? last then attempt false (lastnode (wi_way w))
                else if lastnode (wi_way w) =? last then attempt true (firstnode (wi_way w))
                else loop rest ws
          end
      end.
  Lemma complete_ring_S fuel ws first last rc sq :
    complete_ring mkring (S fuel) ws first last rc sq =
    if first =? last then let! r := ring_is_complete mkring ws rc sq in Ok (ws, r)
    else cr_loop (fun ws' next => complete_ring mkring fuel ws' first next rc (S sq)) last rc sq (seq 0 (List.length ws)) ws.
  Proof. reflexivity. Qed.

  Definition starts_in (is_ : list nat) (ext : list (nat * bool)) : Prop :=
    match ext with [] => False | (i, _) :: _ => In i is_ end.

  Section Loop.
    Variables (fuel : nat) (first last rc : Z) (path : list (nat * bool)).
    Hypothesis Hrc : 0 <= rc.
    Hypothesis Hd : last <> first.
    Hypothesis IH : forall ws path last, Inv ws path rc -> (nfree ws < fuel)%nat -> cr_result fuel ws path first last rc.
    Let rec := fun ws' next => complete_ring mkring fuel ws' first next rc (S (List.length path)).

    (** one attempt with way i *)
    Lemma attempt_spec ws i w inv next :
      Inv ws path rc -> (nfree ws < S fuel)%nat -> nth_error ws i = Some w -> wi_used w < 0 ->
      (exists ws1 w1, rec (set_nth i (wi_set w rc (List.length path) inv) ws) next = Ok (ws1, None) /\
         nth_error ws1 i = Some w1 /\ agree ws (set_nth i (wi_use w1 (wi_used w)) ws1) /\
         forall ext st, walk (map wi_way ws) first next ext -> NoDup (i :: map fst ext) -> Forall (free ws) (map fst ext) ->
           spells (map wi_way ws) (path ++ (i, inv) :: ext) st -> mkring st = None) \/
      (exists ws1 g ext, rec (set_nth i (wi_set w rc (List.length path) inv) ws) next = Ok (ws1, Some (mkRing g (rev (map fst ext)))) /\
         walk (map wi_way ws) first next ext /\ Forall (free ws) (i :: map fst ext) /\
         (exists st, spells (map wi_way ws) (path ++ (i, inv) :: ext) st /\ mkring st = Some g) /\
         Inv ws1 (path ++ (i, inv) :: ext) rc /\ map wi_way ws1 = map wi_way ws /\
         forall j v, ~ In j (i :: map fst ext) -> nth_error ws j = Some v -> exists v', nth_error ws1 j = Some v' /\ agree1 v v').
    Proof.
      intros HI Hf E U. set (w' := wi_set w rc (List.length path) inv).
      assert (HI' := Inv_extend ws path rc i w inv HI Hrc E U). fold w' in HI'.
      assert (Hw : map wi_way (set_nth i w' ws) = map wi_way ws) by (eapply map_set_nth_same; eauto).
      assert (Hf' : (nfree (set_nth i w' ws) < fuel)%nat).
      { pose proof (nfree_set ws i w w' E U). cbn in H. specialize (H Hrc). lia. }
      assert (Fs : forall j, free (set_nth i w' ws) j <-> free ws j /\ j <> i) by (intros j; now apply free_set).
      assert (Lp : S (List.length path) = List.length (path ++ [(i, inv)])) by (rewrite app_length; cbn; lia).
      unfold rec. rewrite Lp.
      destruct (IH _ _ next HI' Hf') as [(ws1 & R & A & Nn)|(ws1 & g & ext & R & Sm)].
      - left. destruct (agree_get _ _ i w' A) as (w1 & E1 & A1).
        { rewrite set_nth_get, Nat.eqb_refl. destruct (Nat.ltb_spec i (List.length ws)); auto.
          assert (i < List.length ws)%nat by (apply nth_error_Some; congruence). lia. }
        exists ws1, w1. split; auto. split; auto. split.
        + eapply agree_set; eauto. split; [cbn; apply A1|split; [reflexivity|intros; lia]].
        + intros ext st Wk N F Sp. apply (Nn ext st); auto.
          * now rewrite Hw.
          * now inversion N.
          * inversion N; subst. rewrite Forall_forall in F |- *. intros j Hj. apply Fs. split; auto. intros ->. auto.
          * rewrite Hw, <- app_assoc. exact Sp.
      - right. destruct Sm as (Wk & F & (st & Sp & Eg) & HI1 & Hw1 & O). rewrite Hw in Wk, Sp, Hw1. rewrite <- app_assoc in Sp, HI1. cbn [app] in Sp, HI1.
        exists ws1, g, ext. split; auto. split; auto. split.
        { constructor; [exists w; auto|]. rewrite Forall_forall in F |- *. intros j Hj. specialize (F _ Hj); apply Fs in F as [F1 F2]; auto. }
        split; eauto. split; auto. split; auto.
        intros j v Nj Ej. apply O; [intros X; apply Nj; now right|]. rewrite set_nth_get.
        destruct (Nat.eqb_spec j i) as [->|]; auto. exfalso. apply Nj. now left.
    Qed.

    Lemma loop_spec : forall is_ ws,
      Inv ws path rc -> (nfree ws < S fuel)%nat -> Forall (fun i => (i < List.length ws)%nat) is_ ->
      (exists ws', cr_loop rec last rc (List.length path) is_ ws = Ok (ws', None) /\ agree ws ws' /\
         none_spec ws path first last (starts_in is_)) \/
      (exists ws' g ext, cr_loop rec last rc (List.length path) is_ ws = Ok (ws', Some (mkRing g (rev (map fst ext)))) /\
         some_spec ws path first last rc ws' g ext).
    Proof.
      induction is_ as [|i rest IHis]; intros ws HI Hf HF.
      - left. exists ws. split; auto. split; [apply agree_refl|]. intros [|[? ?] ?] st []; auto.
      - inversion HF as [|? ? Li HF']; subst.
        destruct (nth_error ws i) as [w|] eqn:E; [|apply nth_error_None in E; lia].
        assert (Cont : forall ws2, agree ws ws2 ->
           (forall inv ext st, walk (map wi_way ws) first last ((i, inv) :: ext) -> NoDup (map fst ((i, inv) :: ext)) ->
              Forall (free ws) (map fst ((i, inv) :: ext)) -> spells (map wi_way ws) (path ++ (i, inv) :: ext) st -> mkring st = None) ->
           (exists ws', cr_loop rec last rc (List.length path) rest ws2 = Ok (ws', None) /\ agree ws ws' /\
              none_spec ws path first last (starts_in (i :: rest))) \/
           (exists ws' g ext, cr_loop rec last rc (List.length path) rest ws2 = Ok (ws', Some (mkRing g (rev (map fst ext)))) /\
              some_spec ws path first last rc ws' g ext)).
        { intros ws2 A K. destruct (IHis ws2) as [(ws' & R & A' & Nn)|(ws' & g & ext & R & Sm)].
          - now apply (Inv_agree ws).
          - now rewrite (agree_nfree _ _ A).
          - now rewrite <- (agree_length _ _ A).
          - left. exists ws'. split; auto. split; [eapply agree_trans; eauto|].
            intros ext st HS Wk N F Sp. destruct ext as [|[j inv] ext]; [destruct HS|]. destruct HS as [->|HS].
            + eapply K; eauto.
            + apply (none_agree _ _ _ _ _ _ (agree_sym _ _ A) Nn) with (ext := (j, inv) :: ext); auto.
          - right. exists ws', g, ext. split; auto. eapply some_agree; eauto. }
        cbn [cr_loop]. rewrite E. destruct (Z.leb_spec 0 (wi_used w)) as [U|U].
        { apply Cont; [apply agree_refl|]. intros inv ext st _ _ F _. inversion F as [|? ? (v & Ev & Uv)]; subst. cbn in Ev. rewrite E in Ev. injection Ev as <-. lia. }
        assert (EW := nth_error_ways _ _ _ E). cbv zeta.
        (* the continuation of a failed or successful attempt *)
        assert (Try : forall inv next,
           (forall ext, walk (map wi_way ws) first next ext -> walk (map wi_way ws) first last ((i, inv) :: ext)) ->
           (forall inv' ext, walk (map wi_way ws) first last ((i, inv') :: ext) -> inv' = inv /\ walk (map wi_way ws) first next ext) ->
           let r := (let! (ws', res) := rec (set_nth i (wi_set w rc (List.length path) inv) ws) next in
                     match res with
                     | Some r => Ok (ws', Some (push_way r i))
                     | None => match nth_error ws' i with
                               | None => UB
                               | Some w' => cr_loop rec last rc (List.length path) rest (set_nth i (wi_use w' (wi_used w)) ws')
                               end
                     end) in
           (exists ws', r = Ok (ws', None) /\ agree ws ws' /\ none_spec ws path first last (starts_in (i :: rest))) \/
           (exists ws' g ext, r = Ok (ws', Some (mkRing g (rev (map fst ext)))) /\ some_spec ws path first last rc ws' g ext)).
        { intros inv next Wk1 Wk2 r. unfold r.
          destruct (attempt_spec ws i w inv next HI Hf E U) as [(ws1 & w1 & R & E1 & A & Nn)|(ws1 & g & ext & R & Wk & F & X & HI1 & Hw & O)].
          - rewrite R. cbn [obind]. rewrite E1. apply Cont; auto.
            intros inv' ext st Wk N F Sp. destruct (Wk2 _ _ Wk) as [-> Wk']. inversion F; subst. eapply Nn; eauto.
          - rewrite R. cbn [obind]. right. exists ws1, g, ((i, inv) :: ext). split; [reflexivity|].
            unfold some_spec. split; [now apply Wk1|]. split; [exact F|]. split; [exact X|]. split; [exact HI1|]. split; [exact Hw|exact O]. }
        destruct (Z.eqb_spec (firstnode (wi_way w)) last) as [Ef|Nf].
        + apply Try.
          * intros ext Wk. cbn [walk]. split; auto. eauto.
          * intros inv' ext (_ & w' & E' & K). rewrite EW in E'. injection E' as <-. destruct inv'; [destruct K; congruence|]. split; auto. apply K.
        + destruct (Z.eqb_spec (lastnode (wi_way w)) last) as [El|Nl].
          * apply Try.
            -- intros ext Wk. cbn [walk]. split; auto. eauto.
            -- intros inv' ext (_ & w' & E' & K). rewrite EW in E'. injection E' as <-. destruct inv'; [|destruct K; congruence]. split; auto. apply K.
          * apply Cont; [apply agree_refl|]. intros inv ext st (_ & w' & E' & K). rewrite EW in E'. injection E' as <-.
            destruct inv; destruct K as (K1 & K2); [destruct K2|]; congruence.
    Qed.
  End Loop.

  Lemma complete_ring_spec fuel : forall ws path first last rc,
    0 <= rc -> Inv ws path rc -> (nfree ws < fuel)%nat -> cr_result fuel ws path first last rc.
  Proof.
    induction fuel as [|fuel IH]; intros ws path first last rc Hrc HI Hf; [lia|].
    destruct (Z.eq_dec first last) as [->|D]; [now apply cr_closed|].
    rewrite complete_ring_S. destruct (Z.eqb_spec first last); [congruence|].
    destruct (loop_spec fuel first last rc path Hrc ltac:(congruence) ltac:(intros; now apply IH) (seq 0 (List.length ws)) ws HI Hf) as [(ws' & R & A & Nn)|H].
    - apply Forall_forall. intros i Hi. apply in_seq in Hi. lia.
    - left. exists ws'. split; auto. split; auto. intros ext st _ Wk. destruct ext as [|[i inv] ext]; [cbn in Wk; congruence|].
      apply Nn; auto. cbn. destruct Wk as (_ & w & E & _). apply in_seq. split; [lia|]. cbn.
      rewrite <- (map_length wi_way). apply nth_error_Some. congruence.
    - right. exact H.
  Qed.
End Search.
