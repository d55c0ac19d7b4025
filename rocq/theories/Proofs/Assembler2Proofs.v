(** The relation assembler: what pass 1 leaves and what pass 2 does with it. *)
From Verif Require Import Base.Prelude Model.Osm Model.Handler Model.Assembler
  Spec.HandlerSpec Spec.AssemblerSpec Proofs.HandlerProofs Proofs.Handler2Proofs Proofs.AssemblerProofs.

Section A.
  Variable keep : relation -> member -> bool.
  Notation kept := (kept keep).
  Notation status := (status keep).
  Notation missing := (missing keep).
  Notation full := (full keep).

  (* ---- pass 1 ---- *)
  Fixpoint mi_of (t : otype) (j n : nat) (r : relation) (ms : list member) : list minfo :=
    match ms with
    | [] => []
    | m :: rest => (if keep r m && otype_eqb (member_otype (m_type m)) t then [mkMI (m_ref m) j n] else []) ++ mi_of t j (S n) r rest
    end.
  Fixpoint mi_all (t : otype) (j : nat) (rs : list relation) : list minfo :=
    match rs with [] => [] | r :: rest => mi_of t j 0 r (r_members r) ++ mi_all t (S j) rest end.

  Lemma mi_of_in t j r ms : forall n x, In x (mi_of t j n r ms) <->
    mi_rel x = j /\ exists k m, mi_pos x = (n + k)%nat /\ nth_error ms k = Some m /\ keep r m = true /\ member_otype (m_type m) = t /\ m_ref m = mi_id x.
  Proof.
    induction ms as [|m ms IH]; intros n x.
    - cbn. split; [tauto|]. intros (_ & k & m & _ & H & _). destruct k; discriminate.
    - cbn [mi_of]. rewrite in_app_iff, IH. split.
      + intros [H|(E & k & m' & H1 & H2 & H3)].
        * destruct (keep r m) eqn:K; cbn in H; [|tauto]. destruct (otype_eqb (member_otype (m_type m)) t) eqn:T; cbn in H; [|tauto].
          destruct H as [<-|[]]. apply otype_eqb_spec in T. split; auto. exists 0%nat, m. cbn. rewrite Nat.add_0_r. auto 7.
        * split; auto. exists (S k), m'. rewrite H1. split; [lia|]. auto.
      + intros (E & k & m' & H1 & H2 & H3 & H4 & H5). destruct k as [|k].
        * left. cbn in H2. injection H2 as <-. rewrite H3. apply otype_eqb_spec in H4. rewrite H4. cbn. left.
          destruct x; cbn in *. subst. f_equal. lia.
        * right. split; auto. exists k, m'. split; [lia|]. auto.
  Qed.
  Lemma mi_of_nodup t j r ms : forall n, NoDup (mi_of t j n r ms).
  Proof.
    induction ms as [|m ms IH]; intros n; cbn [mi_of]; [constructor|].
    destruct (_ && _); cbn; auto. constructor; auto. rewrite mi_of_in. intros (_ & k & _ & H & _). cbn in H. lia.
  Qed.
  Lemma mi_all_in t rs : forall j x, In x (mi_all t j rs) <->
    exists k r m, mi_rel x = (j + k)%nat /\ nth_error rs k = Some r /\ nth_error (r_members r) (mi_pos x) = Some m /\
      keep r m = true /\ member_otype (m_type m) = t /\ m_ref m = mi_id x.
  Proof.
    induction rs as [|r rs IH]; intros j x.
    - cbn. split; [tauto|]. intros (k & r & m & _ & H & _). destruct k; discriminate.
    - cbn [mi_all]. rewrite in_app_iff, mi_of_in, IH. split.
      + intros [(E & k & m & H1 & H)|(k & r' & m & H1 & H)].
        * exists 0%nat, r, m. split; [lia|]. cbn in H1. subst k. auto.
        * exists (S k), r', m. split; [lia|]. auto.
      + intros (k & r' & m & H1 & H2 & H). destruct k as [|k].
        * left. injection H2 as <-. split; [lia|]. exists (mi_pos x), m. auto.
        * right. exists k, r', m. split; [lia|]. auto.
  Qed.
  Lemma nodup_app {A} (a b : list A) : NoDup a -> NoDup b -> (forall x, In x a -> ~ In x b) -> NoDup (a ++ b).
  Proof.
    intros Na Nb D. induction Na; cbn; auto. constructor.
    - rewrite in_app_iff. intros [Q|Q]; [auto|]. apply (D x); [left; auto|auto].
    - apply IHNa. intros y Hy. apply D. right; auto.
  Qed.
  Lemma mi_all_nodup t rs : forall j, NoDup (mi_all t j rs).
  Proof.
    induction rs as [|r rs IH]; intros j; cbn [mi_all]; [constructor|].
    apply nodup_app; auto; [apply mi_of_nodup|]. intros x H1 H2. apply mi_of_in in H1 as (E & _).
    apply mi_all_in in H2 as (k & _ & _ & H & _). lia.
  Qed.
  Lemma mi_all_app t a b : forall j, mi_all t j (a ++ b) = mi_all t j a ++ mi_all t (j + List.length a) b.
  Proof.
    induction a as [|r a IH]; intros j; cbn [mi_all app List.length].
    - now rewrite Nat.add_0_r.
    - rewrite IH, app_assoc. f_equal. f_equal. lia.
  Qed.

  Lemma infos_put t t' l a : object_type t -> object_type t' -> infos t (put_infos t' l a) = if otype_eqb t t' then l else infos t a.
  Proof. intros [->|[->| ->]] [->|[->| ->]]; reflexivity. Qed.
  Lemma add_members_spec r : forall ms n i a i' a', add_members keep r ms n i a = (i', a') ->
    a_rels a' = a_rels a /\ a_want a' = a_want a /\ ri_rel i' = ri_rel i /\ ri_members i' = ri_members i /\
    ri_need i' = ri_need i + Z.of_nat (List.length (filter (keep r) ms)) /\
    forall t, object_type t -> infos t a' = infos t a ++ mi_of t (List.length (a_rels a)) n r ms.
  Proof.
    induction ms as [|m ms IH]; intros n i a i' a'; cbn [add_members].
    - intros E. injection E as <- <-. do 4 (split; [reflexivity|]). split; [cbn; lia|]. intros. now rewrite app_nil_r.
    - cbn [filter mi_of]. destruct (keep r m) eqn:K.
      + intros E. apply IH in E as (E1 & E2 & E3 & E4 & E5 & E6).
        assert (P : forall t l, a_rels (put_infos t l a) = a_rels a /\ a_want (put_infos t l a) = a_want a) by (intros [] ?; split; reflexivity).
        rewrite (proj1 (P _ _)) in E1, E6. rewrite (proj2 (P _ _)) in E2. split; auto. split; auto. split; auto. split; auto.
        split; [cbn [List.length]; rewrite E5; cbn [need_member ri_need]; lia|].
        intros t Ht. rewrite E6 by auto. cbn [andb].
        assert (C : object_type (member_otype (m_type m)) \/ member_otype (m_type m) = UNKNOWN).
        { unfold member_otype, object_type. repeat destruct (Ascii.eqb _ _); auto. }
        destruct C as [C|C].
        * rewrite infos_put by auto. destruct (otype_eqb t (member_otype (m_type m))) eqn:T.
          -- apply otype_eqb_spec in T. rewrite <- T, otype_eqb_refl, <- app_assoc. reflexivity.
          -- destruct (otype_eqb (member_otype (m_type m)) t) eqn:T2; [|reflexivity].
             apply otype_eqb_spec in T2. rewrite T2, otype_eqb_refl in T. discriminate.
        * rewrite C. cbn [put_infos]. destruct Ht as [->|[->| ->]]; reflexivity.
      + cbn [andb app]. apply IH.
  Qed.

  Lemma filter_kept_length r : List.length (filter (keep r) (r_members r)) = missing r (fun _ => None).
  Proof.
    unfold AssemblerProofs.missing, AssemblerProofs.kept. generalize (r_members r) as ms.
    assert (G : forall ms pre, List.length (filter (keep r) ms) =
      List.length (filter (fun i => (match nth_error (pre ++ ms) i with Some m => keep r m | None => false end) && true) (seq (List.length pre) (List.length ms)))).
    { induction ms as [|m ms IH]; intros pre; [reflexivity|]. cbn [filter List.length seq].
      rewrite nth_error_app2, Nat.sub_diag by lia. cbn [nth_error]. rewrite andb_true_r.
      specialize (IH (pre ++ [m])). rewrite <- app_assoc in IH. cbn [app] in IH. rewrite app_length in IH. cbn [List.length] in IH.
      rewrite Nat.add_1_r in IH. destruct (keep r m); cbn [List.length]; rewrite IH; reflexivity. }
    intros ms. apply (G ms []).
  Qed.
  Lemma status_new r : full r (fun _ => None) = false /\
    mkRI (Some r) (map (fun _ => None) (r_members r)) (Z.of_nat (List.length (filter (keep r) (r_members r)))) = status r (fun _ => None).
  Proof.
    assert (F : full r (fun _ => None) = false).
    { destruct (full r (fun _ => None)) eqn:E; auto. apply full_spec in E as [(i & Hi) H]. exfalso. exact (H i Hi eq_refl). }
    split; auto. unfold AssemblerProofs.status. rewrite F, filter_kept_length. f_equal.
    generalize 0%nat. induction (r_members r); intros n; cbn; auto. now rewrite <- IHl.
  Qed.

  Variable select : relation -> bool.
  Variable want : otype -> bool.
  Variable srt : list minfo -> list minfo.
  Lemma add_all_spec : forall rs0, let a := fold_left (fun a r => add_relation keep r a) rs0 (asm_new want) in
    a_rels a = map (fun r => status r (fun _ => None)) rs0 /\ a_want a = a_want (asm_new want) /\
    forall t, object_type t -> infos t a = mi_all t 0 rs0.
  Proof.
    induction rs0 as [|r rs0 IH] using rev_ind.
    - cbn. split; auto. split; auto. intros t [->|[->| ->]]; reflexivity.
    - cbn zeta. rewrite fold_left_app. cbn [fold_left]. destruct IH as (I1 & I2 & I3).
      set (a := fold_left _ rs0 _) in *. unfold add_relation.
      destruct (add_members keep r (r_members r) 0 (ri_new r) a) as [i a'] eqn:E.
      apply add_members_spec in E as (E1 & E2 & E3 & E4 & E5 & E6). cbn [a_rels a_want].
      split; [|split].
      + rewrite E1, I1, map_app. f_equal. cbn. f_equal. rewrite <- (proj2 (status_new r)). destruct i; cbn in *.
        rewrite E3, E4, E5. f_equal.
      + congruence.
      + intros t Ht. rewrite mi_all_app. cbn [mi_all]. rewrite app_nil_r, <- I3 by auto.
        specialize (E6 t Ht). rewrite I1, map_length in E6. cbn [Nat.add]. rewrite <- E6. destruct Ht as [->|[->| ->]]; reflexivity.
  Qed.

  (** the state after pass 1 *)
  Definition ready (sel : list relation) (a : asm) : Prop :=
    rels_ok keep sel (fun _ _ => None) (a_rels a) /\ a_want a = a_want (asm_new want) /\
    forall t, object_type t -> Permutation (infos t a) (mi_all t 0 sel) /\ StronglySorted (fun a b => mi_id a <= mi_id b) (infos t a).

  Hypothesis SRT : sorts srt.

  Lemma pass1_skip os : (forall o, In o os -> obj_type o <> RELATION) -> forall a, takes (pass1 select keep srt) (map CObj os) a a.
  Proof.
    induction os as [|o os IH]; intros H a; [apply takes_nil; auto|]. cbn [map]. apply takes_cons. exists a.
    split; [|apply IH; intros; apply H; right; auto]. specialize (H o (or_introl eq_refl)). destruct o; cbn in *; congruence.
  Qed.
  Lemma pass1_runs gs : (forall g, In g gs -> well_typed g) -> (forall g, In g gs -> fst g <> RELATION) ->
    forall a, takes (pass1 select keep srt) (flat_map bracket gs) a a.
  Proof.
    induction gs as [|[t os] gs IH]; intros W H a; [apply takes_nil; auto|]. cbn [flat_map]. unfold bracket. cbn [fst snd].
    cbn [app]. apply takes_cons. exists a. split; [reflexivity|]. rewrite <- app_assoc. apply takes_app. exists a. split.
    - apply pass1_skip. intros o Ho. destruct (W (t, os) (or_introl eq_refl)) as [_ T]. cbn in T. rewrite T by auto. apply (H (t, os)). left; auto.
    - cbn [app]. apply takes_cons. exists a. split.
      + pose proof (H (t, os) (or_introl eq_refl)). cbn in *. destruct t; try reflexivity; congruence.
      + apply IH; intros; [apply W|apply H]; right; auto.
  Qed.
  Lemma pass1_rels os : (forall o, In o os -> obj_type o = RELATION) -> forall a,
    takes (pass1 select keep srt) (map CObj os) a (fold_left (fun a r => add_relation keep r a) (filter select (relations_of os)) a).
  Proof.
    induction os as [|o os IH]; intros H a; [apply takes_nil; auto|]. cbn [map]. apply takes_cons.
    specialize (H o (or_introl eq_refl)) as Ho. destruct o; try discriminate. cbn [relations_of flat_map app filter pass1].
    eexists. split; [reflexivity|]. fold (relations_of os). destruct (select r); cbn [fold_left]; apply IH; intros; apply H; right; auto.
  Qed.
  Lemma ready_new : ready [] (asm_new want).
  Proof.
    split; [split; [reflexivity|intros [] ?; discriminate]|]. split; [reflexivity|]. intros t [->|[->| ->]]; split; constructor.
  Qed.
  Lemma pass1_ready : forall gs, (forall g, In g gs -> well_typed g) ->
    ready (filter select (first_relations gs)) (r_handler (fst (parse (pass1 select keep srt) gs None (asm_new want)))) /\
    snd (parse (pass1 select keep srt) gs None (asm_new want)) = None.
  Proof.
    intros gs W. unfold first_relations.
    destruct gs as [|g0 gs0]; [split; [apply ready_new|reflexivity]|].
    assert (NE : g0 :: gs0 <> []) by discriminate. set (gs := g0 :: gs0) in *. clearbody gs.
    pose proof (join_well_typed gs W) as JW.
    destruct (find _ (join gs)) as [[t os]|] eqn:F.
    - apply find_some in F as F'. destruct F' as [Fi Ft]. cbn in Ft. apply otype_eqb_spec in Ft. subst t. cbn [snd].
      assert (S : exists pre post, join gs = pre ++ (RELATION, os) :: post /\ forall g, In g pre -> fst g <> RELATION).
      { clear -F. revert F. induction (join gs) as [|g l IH]; cbn; [discriminate|]. destruct (otype_eqb (fst g) RELATION) eqn:E.
        - intros H. injection H as ->. exists [], l. split; [reflexivity|intros ? []].
        - intros H. destruct (IH H) as (pre & post & -> & P). exists (g :: pre), post. split; auto.
          intros x [<-|Hx]; auto. intros C. rewrite C in E. discriminate. }
      destruct S as (pre & post & J & P).
      pose proof (JW (RELATION, os) Fi) as [_ TO]. cbn in TO.
      set (a1 := fold_left (fun a r => add_relation keep r a) (filter select (relations_of os)) (asm_new want)).
      assert (E : observe (parse (pass1 select keep srt) gs None (asm_new want)) =
        ((CInit :: flat_map bracket pre ++ CBefore RELATION :: map CObj os) ++ [CAfter RELATION; CFinal], sort_infos srt a1, None)).
      { rewrite (stop_at _ _ gs (asm_new want) (CInit :: flat_map bracket pre ++ CBefore RELATION :: map CObj os) (CAfter RELATION) (flat_map bracket post) a1 (sort_infos srt a1)); auto.
        - unfold protocol. rewrite J, flat_map_app. cbn [flat_map]. unfold bracket at 2. cbn [fst snd]. cbn. rewrite <- !app_assoc. cbn. rewrite <- ?app_assoc. reflexivity.
        - apply takes_cons. exists (asm_new want). split; [reflexivity|]. apply takes_app. exists (asm_new want). split.
          + apply pass1_runs; auto. intros g Hg. apply JW. rewrite J. apply in_or_app; auto.
          + apply takes_cons. exists (asm_new want). split; [reflexivity|]. apply pass1_rels; auto. }
      unfold observe in E. injection E as _ E1 E2. rewrite E1, E2. split; auto.
      destruct (add_all_spec (filter select (relations_of os))) as (I1 & I2 & I3). fold a1 in I1, I2, I3.
      split; [|split].
      + cbn. rewrite I1. split; [now rewrite map_length|]. intros j r Hj. rewrite nth_error_map, Hj. reflexivity.
      + exact I2.
      + intros t Ht. rewrite <- I3 by auto. destruct Ht as [->|[->| ->]]; cbn; split; apply SRT.
    - assert (P : forall g, In g (join gs) -> fst g <> RELATION).
      { intros g Hg C. apply (find_none _ _ F) in Hg. rewrite C in Hg. discriminate. }
      assert (E : observe (parse (pass1 select keep srt) gs None (asm_new want)) = (protocol gs ++ [CFinal], asm_new want, None)).
      { rewrite (no_throw _ _ gs (asm_new want) (asm_new want)); auto. unfold protocol. apply takes_cons. exists (asm_new want).
        split; [reflexivity|]. apply pass1_runs; auto. }
      unfold observe in E. injection E as _ E1 E2. rewrite E1, E2. split; auto. apply ready_new.
  Qed.
End A.
