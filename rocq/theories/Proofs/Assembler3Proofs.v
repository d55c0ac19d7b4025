(** The relation assembler: pass 2. *)
From Verif Require Import Base.Prelude Model.Osm Model.Handler Model.Assembler
  Spec.HandlerSpec Spec.AssemblerSpec Proofs.HandlerProofs Proofs.Handler2Proofs Proofs.AssemblerProofs Proofs.Assembler2Proofs.

Definition mi_le (a b : minfo) : Prop := mi_id a <= mi_id b.
Lemma until_above_filter id l : StronglySorted mi_le l -> (forall m, In m l -> id <= mi_id m) ->
  until_above id l = filter (fun m => mi_id m =? id) l.
Proof.
  intros S G. induction S as [|m l S IH F]; cbn; auto. rewrite Forall_forall in F. unfold mi_le in F.
  pose proof (G m (or_introl eq_refl)). destruct (Z.ltb_spec id (mi_id m)).
  - destruct (Z.eqb_spec (mi_id m) id); [lia|]. symmetry.
    destruct (filter _ l) eqn:E; auto. assert (I : In m0 (filter (fun m => mi_id m =? id) l)) by (rewrite E; left; auto).
    apply filter_In in I as [I1 I2]. apply F in I1. lia.
  - destruct (Z.eqb_spec (mi_id m) id); [|lia]. f_equal. apply IH. intros x Hx. apply G; right; auto.
Qed.
Lemma equal_range_filter id l : StronglySorted mi_le l -> equal_range id l = filter (fun m => mi_id m =? id) l.
Proof.
  unfold equal_range. intros S. induction S as [|m l S IH F]; [reflexivity|]. cbn [lower_bound].
  destruct (Z.ltb_spec (mi_id m) id).
  - rewrite IH. cbn [filter]. destruct (Z.eqb_spec (mi_id m) id); [lia|reflexivity].
  - apply until_above_filter; [constructor; auto|]. rewrite Forall_forall in F. unfold mi_le in F.
    intros x [<-|Hx]; [lia|]. apply F in Hx. lia.
Qed.
Lemma obj_type_ok o : object_type (obj_type o).
Proof. unfold object_type. destruct o; cbn; auto. Qed.
Lemma names_iff m o : names m o = true <-> member_otype (m_type m) = obj_type o /\ m_ref m = obj_id o.
Proof.
  unfold names, member_otype. generalize (m_type m) as t. intros t.
  destruct o; cbn [obj_type letter]; rewrite andb_true_iff, Z.eqb_eq;
    (destruct (Ascii.eqb_spec t "n") as [->|D1];
     [|destruct (Ascii.eqb_spec t "w") as [->|D2]; [|destruct (Ascii.eqb_spec t "r") as [->|D3]]]);
    cbn; split; intros [A B]; split; auto; try discriminate.
Qed.
Lemma find_snoc {A} (p : A -> bool) l o : find p (l ++ [o]) = match find p l with Some x => Some x | None => if p o then Some o else None end.
Proof. induction l as [|x l IH]; cbn; auto. destruct (p x); auto. Qed.
Lemma find_exists {A} (p : A -> bool) l : find p l <> None <-> exists x, In x l /\ p x = true.
Proof.
  split.
  - destruct (find p l) eqn:E; [|congruence]. apply find_some in E. eauto.
  - intros (x & H1 & H2) N. apply (find_none _ _ N) in H1. congruence.
Qed.

Section P2.
  Variable keep : relation -> member -> bool.
  Variable want : otype -> bool.
  Variable sel : list relation.
  Definition arr (S : list object) (j i : nat) : option object :=
    match nth_error sel j with
    | Some r => match nth_error (r_members r) i with
                | Some m => if keep r m then find (names m) S else None
                | None => None
                end
    | None => None
    end.
  Lemma slots_arr S j r : nth_error sel j = Some r -> map (arr S j) (seq 0 (List.length (r_members r))) = slots keep S r.
  Proof.
    intros H. apply nth_error_ext. intros n. unfold slots. rewrite !nth_error_map.
    destruct (lt_dec n (List.length (r_members r))) as [L|L].
    - rewrite (nth_error_nth' (seq 0 _) 0%nat) by (rewrite seq_length; lia). rewrite seq_nth by lia. cbn [option_map Nat.add].
      unfold arr. rewrite H. destruct (nth_error (r_members r) n) eqn:E; [reflexivity|]. apply nth_error_None in E. lia.
    - assert (nth_error (seq 0 (List.length (r_members r))) n = None) as -> by (apply nth_error_None; rewrite seq_length; lia).
      assert (nth_error (r_members r) n = None) as -> by (apply nth_error_None; lia). reflexivity.
  Qed.
  Lemma full_arr S j r : nth_error sel j = Some r -> (full keep r (arr S j) = true <-> complete_with keep S r).
  Proof.
    intros H. rewrite full_spec. unfold complete_with, kept. split.
    - intros [(i & Hi) G]. split.
      + destruct (nth_error (r_members r) i) eqn:E; [|discriminate]. exists m. split; auto. eapply nth_error_In; eauto.
      + intros m Hm K. apply In_nth_error in Hm as (k & Hk). specialize (G k). rewrite Hk in G. specialize (G K).
        unfold arr in G. rewrite H, Hk, K in G. now apply find_exists in G.
    - intros [(m & Hm & K) G]. split.
      + apply In_nth_error in Hm as (k & Hk). exists k. now rewrite Hk.
      + intros i Hi. unfold arr. rewrite H. destruct (nth_error (r_members r) i) eqn:E; [|discriminate]. rewrite Hi.
        apply find_exists. apply G; auto. eapply nth_error_In; eauto.
  Qed.

  Definition infos_ok (t : otype) (a : asm) : Prop := Permutation (infos t a) (mi_all keep t 0 sel) /\ StronglySorted mi_le (infos t a).
  Definition key (o : object) := (obj_type o, obj_id o).

  Lemma object_step S o a : rels_ok keep sel (arr S) (a_rels a) -> infos_ok (obj_type o) a -> ~ In (key o) (map key S) ->
    exists rels es, find_and_add o a = Ok (mkAsm rels (a_nodes a) (a_ways a) (a_relations a) (a_want a), es, is_member keep sel o) /\
      rels_ok keep sel (arr (S ++ [o])) rels /\ NoDup es /\
      forall e, In e es <-> exists j r, nth_error sel j = Some r /\ complete_with keep (S ++ [o]) r /\ ~ complete_with keep S r /\
        e = EComplete j r (slots keep (S ++ [o]) r).
  Proof.
    intros RO [IP IS] Fresh. set (R := equal_range (obj_id o) (infos (obj_type o) a)).
    assert (RE : R = filter (fun m => mi_id m =? obj_id o) (infos (obj_type o) a)) by (apply equal_range_filter; auto).
    assert (RN : NoDup R).
    { rewrite RE. apply NoDup_filter. eapply Permutation_NoDup; [apply Permutation_sym; exact IP|apply mi_all_nodup]. }
    assert (RI : forall x, In x R <-> exists r m, nth_error sel (mi_rel x) = Some r /\ nth_error (r_members r) (mi_pos x) = Some m /\
        keep r m = true /\ names m o = true /\ mi_id x = obj_id o).
    { intros x. rewrite RE, filter_In, Z.eqb_eq. split.
      - intros [Hx E]. apply (Permutation_in _ IP) in Hx. apply mi_all_in in Hx as (k & r & m & H1 & H2 & H3 & H4 & H5 & H6).
        cbn in H1. subst k. exists r, m. split; auto. split; auto. split; auto. split; auto. apply names_iff. split; congruence.
      - intros (r & m & H1 & H2 & H3 & H4 & H5). split; auto. apply names_iff in H4 as [H4 H4'].
        apply (Permutation_in _ (Permutation_sym IP)). apply mi_all_in. exists (mi_rel x), r, m. split; auto. split; auto. split; auto. split; auto. split; auto. congruence. }
    assert (NF : forall m, names m o = true -> find (names m) S = None).
    { intros m Hm. destruct (find (names m) S) as [o'|] eqn:E; auto. exfalso. apply find_some in E as [E1 E2].
      apply names_iff in Hm as [A1 A2]. apply names_iff in E2 as [B1 B2]. apply Fresh. apply in_map_iff. exists o'. split; auto.
      unfold key. congruence. }
    assert (Pd : forall m, In m R -> pending keep sel (arr S) o m).
    { intros x Hx. apply RI in Hx as (r & m & H1 & H2 & H3 & H4 & H5). split; auto. exists r. split; auto. unfold kept. rewrite H2. split; auto.
      unfold arr. rewrite H1, H2, H3. auto. }
    destruct (add_object_spec keep sel o R (arr S) (a_rels a) RO RN Pd) as (rels & es & A1 & A2 & A3 & A4).
    assert (FA : forall j r i, nth_error sel j = Some r -> fill (arr S) o R j i = arr (S ++ [o]) j i).
    { intros j r i Hj. unfold fill. unfold arr at 2. rewrite Hj.
      destruct (existsb _ R) eqn:EX.
      - apply existsb_exists in EX as (x & Hx & Ex). apply andb_true_iff in Ex as [Ex1 Ex2]. apply Nat.eqb_eq in Ex1, Ex2.
        apply RI in Hx as (r' & m & H1 & H2 & H3 & H4 & H5). rewrite Ex1 in H1. rewrite Hj in H1. injection H1 as <-. rewrite Ex2 in H2.
        rewrite H2, H3, find_snoc, (NF m H4), H4. reflexivity.
      - unfold arr. rewrite Hj. destruct (nth_error (r_members r) i) as [m|] eqn:E; auto. destruct (keep r m) eqn:K; auto.
        rewrite find_snoc. destruct (find (names m) S); auto. destruct (names m o) eqn:Nm; auto. exfalso.
        assert (In (mkMI (obj_id o) j i) R) by (apply RI; exists r, m; cbn; auto 6).
        assert (existsb (fun m => (mi_rel m =? j)%nat && (mi_pos m =? i)%nat) R = true); [|congruence].
        apply existsb_exists. eexists; split; [eassumption|]. cbn. now rewrite !Nat.eqb_refl. }
    assert (RO' : rels_ok keep sel (arr (S ++ [o])) rels).
    { split; [apply A2|]. intros j r Hj. rewrite (proj2 A2 _ _ Hj). f_equal. apply status_ext. intros i _. eapply FA; eauto. }
    assert (EV : forall e, In e es <-> exists j r, nth_error sel j = Some r /\ complete_with keep (S ++ [o]) r /\ ~ complete_with keep S r /\
        e = EComplete j r (slots keep (S ++ [o]) r)).
    { intros e. rewrite A4. split; intros (j & r & H1 & H2 & H3 & ->); exists j, r; (split; [auto|]).
      - assert (H2' : full keep r (arr (S ++ [o]) j) = true) by (rewrite <- H2; apply status_ext; intros; symmetry; eapply FA; eauto).
        apply (full_arr _ _ _ H1) in H2'. split; auto. split; [intros C; apply (full_arr _ _ _ H1) in C; congruence|].
        f_equal. rewrite <- (slots_arr _ _ _ H1). apply map_ext. intros; eapply FA; eauto.
      - assert (H2' : full keep r (fill (arr S) o R j) = full keep r (arr (S ++ [o]) j)) by (apply status_ext; intros; eapply FA; eauto).
        rewrite H2'. apply (full_arr _ _ _ H1) in H2. split; auto. split.
        + destruct (full keep r (arr S j)) eqn:E; auto. apply (full_arr _ _ _ H1) in E. tauto.
        + f_equal. rewrite <- (slots_arr _ _ _ H1). apply map_ext. intros; symmetry; eapply FA; eauto. }
    assert (IM : is_member keep sel o = true <-> R <> []).
    { unfold is_member. rewrite existsb_exists. split.
      - intros (r & Hr & H). apply existsb_exists in H as (m & Hm & H). apply andb_true_iff in H as [H1 H2].
        apply In_nth_error in Hr as (j & Hj). apply In_nth_error in Hm as (i & Hi).
        assert (In (mkMI (obj_id o) j i) R) by (apply RI; exists r, m; cbn; auto 6). intros E. rewrite E in *. tauto.
      - intros NE. destruct R as [|x R']; [congruence|]. destruct (proj1 (RI x) (or_introl eq_refl)) as (r & m & H1 & H2 & H3 & H4 & H5).
        exists r. split; [eapply nth_error_In; eauto|]. apply existsb_exists. exists m. split; [eapply nth_error_In; eauto|]. now rewrite H3, H4. }
    unfold find_and_add. fold R. clearbody R. destruct R as [|x R'].
    - exists rels, es. assert (E : is_member keep sel o = false) by (destruct (is_member keep sel o); auto; destruct (proj1 IM eq_refl); auto).
      rewrite E. cbn in A1. injection A1 as <- <-. split; [destruct a; reflexivity|auto].
    - exists rels, es. assert (E : is_member keep sel o = true) by (apply IM; discriminate). rewrite E, A1. cbn [obind]. auto.
  Qed.

  Definition over (t : otype) (p : list callback) : bool :=
    existsb (fun c => match c with CAfter t' => otype_eqb t t' | _ => false end) p.
  Lemma over_in t p : over t p = true <-> In (CAfter t) p.
  Proof.
    unfold over. rewrite existsb_exists. split.
    - intros (c & Hc & E). destruct c; try discriminate. apply otype_eqb_spec in E. now subst.
    - intros H. exists (CAfter t). split; auto. apply otype_eqb_refl.
  Qed.
  Definition open_count (p : list callback) : Z :=
    Z.b2z (want NODE && negb (over NODE p)) + Z.b2z (want WAY && negb (over WAY p)) + Z.b2z (want RELATION && negb (over RELATION p)).
  Definition inv (p : list callback) (a : asm) : Prop :=
    rels_ok keep sel (arr (arrived want p)) (a_rels a) /\
    (forall t, object_type t -> ~ In (CAfter t) p -> infos_ok t a) /\ a_want a = open_count p.
  Fixpoint orderly (p cs : list callback) : Prop :=
    match cs with
    | [] => True
    | c :: r =>
        match c with
        | CObj o => ~ In (CAfter (obj_type o)) p /\ (want (obj_type o) = true -> ~ In (key o) (map key (arrived want p)))
        | CAfter t => object_type t /\ ~ In (CAfter t) p
        | CArea _ => False
        | _ => True
        end /\ orderly (p ++ [c]) r
    end.

  Lemma arrived_snoc p c : arrived want (p ++ [c]) = arrived want p ++ (match c with CObj o => if want (obj_type o) then [o] else [] | _ => [] end).
  Proof. unfold arrived. rewrite flat_map_app. cbn. now rewrite app_nil_r. Qed.
  Lemma over_snoc t p c : over t (p ++ [c]) = over t p || match c with CAfter t' => otype_eqb t t' | _ => false end.
  Proof. unfold over. rewrite existsb_app. cbn. now rewrite orb_false_r. Qed.
  Lemma open_count_other p c : (forall t, c <> CAfter t) -> open_count (p ++ [c]) = open_count p.
  Proof.
    intros H. unfold open_count. rewrite !over_snoc. destruct c; rewrite ?orb_false_r; auto. destruct (H t); auto.
  Qed.
  Lemma open_count_unwanted p t : want t = false -> open_count (p ++ [CAfter t]) = open_count p.
  Proof. intros H. unfold open_count. rewrite !over_snoc. destruct t; cbn; rewrite ?H, ?orb_false_r; auto. Qed.
  Lemma open_count_after p t : object_type t -> want t = true -> ~ In (CAfter t) p -> open_count (p ++ [CAfter t]) = open_count p - 1.
  Proof.
    intros O H N. assert (over t p = false) as N' by (destruct (over t p) eqn:E; auto; apply over_in in E; tauto).
    unfold open_count. rewrite !over_snoc. destruct O as [->|[->| ->]]; cbn; rewrite H, N', ?orb_false_r; cbn;
      destruct (want NODE), (want WAY), (want RELATION), (over NODE p), (over WAY p), (over RELATION p); try discriminate; reflexivity.
  Qed.
  Lemma open_count_zero p : open_count p = 0 <-> types_over want p.
  Proof.
    unfold open_count, types_over. split.
    - intros H t O W. apply over_in. revert H W. destruct O as [->|[->| ->]];
        destruct (want NODE), (want WAY), (want RELATION), (over NODE p), (over WAY p), (over RELATION p); cbn; intros; auto; try discriminate.
    - intros H. assert (G : forall t, object_type t -> want t && negb (over t p) = false).
      { intros t O. destruct (want t) eqn:W; auto. apply (H t O) in W. apply over_in in W. now rewrite W. }
      unfold object_type in G. rewrite !G by auto. reflexivity.
  Qed.

  Lemma pass2_step p c a : inv p a -> orderly p [c] -> exists a' e, pass2 want c a = Ok (a', e) /\ inv (p ++ [c]) a' /\ events_at keep want sel p c e.
  Proof.
    intros (IR & II & IW) [OC _].
    assert (Triv : (forall t, c <> CAfter t) -> (match c with CObj o => want (obj_type o) = false | _ => True end) -> inv (p ++ [c]) a).
    { intros H1 H2. split; [|split].
      - rewrite arrived_snoc. destruct c; rewrite ?H2, ?app_nil_r; auto.
      - intros t O N. apply II; auto. intros C; apply N; apply in_or_app; auto.
      - rewrite open_count_other by auto. auto. }
    destruct c as [|t|o|t|ar|]; cbn [pass2 events_at].
    - exists a, [ENext CInit]. split; auto. split; auto. apply Triv; [discriminate|auto].
    - exists a, [ENext (CBefore t)]. split; auto. split; auto. apply Triv; [discriminate|auto].
    - destruct (want (obj_type o)) eqn:W.
      + destruct OC as [O1 O2]. destruct (object_step (arrived want p) o a IR (II _ (obj_type_ok o) O1) (O2 eq_refl)) as (rels & es & A1 & A2 & A3 & A4).
        rewrite A1. cbn [obind]. eexists _, _. split; [reflexivity|]. split.
        * split; [|split]; cbn [a_rels a_want].
          -- rewrite arrived_snoc, W. exact A2.
          -- intros t O N. destruct (II t O) as [J1 J2]; [intros C; apply N; apply in_or_app; auto|]. destruct O as [->|[->| ->]]; split; auto.
          -- rewrite open_count_other by discriminate. auto.
        * exists es. split; auto. unfold completions. rewrite arrived_snoc, W. auto.
      + eexists _, _. split; [reflexivity|]. split; auto. apply Triv; [discriminate|auto].
    - destruct OC as [O N]. destruct (want t) eqn:W.
      + unfold after_type. cbn [a_rels a_nodes a_ways a_relations a_want]. eexists _, _. split; [reflexivity|].
        assert (Pi : forall l, a_rels (put_infos t l a) = a_rels a /\ a_want (put_infos t l a) = a_want a) by (destruct t; split; reflexivity).
        rewrite (proj1 (Pi [])), (proj2 (Pi [])). pose proof (open_count_after p t O W N) as OA. split.
        * split; [|split]; cbn [a_rels a_want].
          -- rewrite arrived_snoc, app_nil_r. auto.
          -- intros t' O' N'. destruct (II t' O') as [J1 J2]; [intros C; apply N'; apply in_or_app; auto|].
             assert (t' <> t) by (intros ->; apply N'; apply in_or_app; right; left; auto).
             destruct O as [->|[->| ->]], O' as [->|[->| ->]]; try congruence; split; auto.
          -- rewrite OA, IW. reflexivity.
        * rewrite IW, <- OA. destruct (Z.eqb_spec (open_count (p ++ [CAfter t])) 0) as [E|E].
          -- left. split; auto. now apply open_count_zero.
          -- right. split; auto. intros C. apply E. now apply open_count_zero.
      + eexists _, _. split; [reflexivity|]. split; auto. split; [|split].
        * rewrite arrived_snoc, app_nil_r. auto.
        * intros t' O' N'. apply II; auto. intros C; apply N'; apply in_or_app; auto.
        * rewrite open_count_unwanted by auto. auto.
    - destruct OC.
    - exists a, [ENext CFinal]. split; auto. split; auto. apply Triv; [discriminate|auto].
  Qed.

  Lemma pass2_run : forall cs p a, inv p a -> orderly p cs ->
    exists a' es, pass2_all want cs a = Ok (a', es) /\ List.length es = List.length cs /\
      forall p' c q, cs = p' ++ c :: q -> events_at keep want sel (p ++ p') c (nth (List.length p') es []).
  Proof.
    induction cs as [|c cs IH]; intros p a I O.
    - exists a, []. split; auto. split; auto. intros [] ? ?; discriminate.
    - destruct O as [O1 O2]. destruct (pass2_step p c a I) as (a1 & e & P1 & I1 & E1); [split; [auto|exact Logic.I]|].
      destruct (IH _ _ I1 O2) as (a2 & es & P2 & L & E2). exists a2, (e :: es). cbn [pass2_all]. rewrite P1. cbn [obind]. rewrite P2. cbn [obind].
      split; auto. split; [cbn; lia|]. intros p' c' q E. destruct p' as [|x p'].
      + injection E as <- <-. rewrite app_nil_r. exact E1.
      + injection E as <- ->. cbn [List.length nth]. specialize (E2 p' c' q eq_refl). rewrite <- app_assoc in E2. exact E2.
  Qed.

  Lemma ready_inv a : ready keep want sel a -> inv [] a.
  Proof.
    intros (R1 & R2 & R3). split; [|split].
    - split; [apply R1|]. intros j r Hj. rewrite (proj2 R1 _ _ Hj). f_equal. apply status_ext. intros i _. unfold arr. rewrite Hj. cbn.
      destruct (nth_error (r_members r) i) as [m|]; auto. destruct (keep r m); auto.
    - intros t O _. apply R3; auto.
    - rewrite R2. unfold open_count. cbn. now rewrite !andb_true_r.
  Qed.

  Lemma orderly_app : forall a p b, orderly p a -> orderly (p ++ a) b -> orderly p (a ++ b).
  Proof.
    induction a as [|c a IH]; intros p b H1 H2; cbn [app].
    - now rewrite app_nil_r in H2.
    - destruct H1 as [H1 H1']. split; auto. apply IH; auto. now rewrite <- app_assoc.
  Qed.
  Lemma arrived_app a b : arrived want (a ++ b) = arrived want a ++ arrived want b.
  Proof. apply flat_map_app. Qed.
  Lemma arrived_objs os : arrived want (map CObj os) = filter (fun o => want (obj_type o)) os.
  Proof. induction os as [|o os IH]; cbn; auto. unfold arrived in IH. rewrite IH. destruct (want (obj_type o)); reflexivity. Qed.
  Lemma orderly_objs t os : (forall o, In o os -> obj_type o = t) -> NoDup (map key os) -> forall p,
    ~ In (CAfter t) p -> (forall o, In o os -> ~ In (key o) (map key (arrived want p))) -> orderly p (map CObj os).
  Proof.
    intros T N. induction os as [|o os IH]; intros p A F; cbn [map orderly]; auto.
    inversion N as [|? ? N1 N2]; subst. split.
    - rewrite (T o) by (left; auto). split; auto. intros _. apply F. left; auto.
    - apply IH; auto.
      + intros; apply T; right; auto.
      + intros C. apply in_app_or in C as [C|[C|[]]]; [auto|discriminate].
      + intros x Hx C. rewrite arrived_snoc, map_app in C. apply in_app_or in C as [C|C]; [apply (F x); [right; auto|auto]|].
        destruct (want (obj_type o)); [|destruct C]. destruct C as [C|[]]. apply N1. rewrite C. apply in_map; auto.
  Qed.
  Lemma orderly_runs : forall runs p, NoDup (map fst runs) -> (forall r, In r runs -> well_typed r) ->
    (forall t, In t (map fst runs) -> ~ In (CAfter t) p) -> NoDup (map key (flat_map snd runs)) ->
    (forall o, In o (flat_map snd runs) -> ~ In (key o) (map key (arrived want p))) -> orderly p (flat_map bracket runs).
  Proof.
    induction runs as [|[t os] runs IH]; intros p N W A K F; cbn [flat_map]; [exact I|].
    inversion N as [|? ? N1 N2]; subst. cbn [flat_map] in K, F. rewrite map_app in K.
    destruct (W (t, os) (or_introl eq_refl)) as [Tt To]. cbn [fst snd] in *.
    assert (Ar : forall q, arrived want (q ++ bracket (t, os)) = arrived want q ++ filter (fun o => want (obj_type o)) os).
    { intros q. unfold bracket. cbn [fst snd]. rewrite arrived_app. f_equal. change (CBefore t :: map CObj os ++ [CAfter t]) with ([CBefore t] ++ map CObj os ++ [CAfter t]).
      rewrite !arrived_app, arrived_objs. cbn. now rewrite app_nil_r. }
    apply orderly_app.
    - unfold bracket. cbn [fst snd]. change (CBefore t :: map CObj os ++ [CAfter t]) with ([CBefore t] ++ (map CObj os ++ [CAfter t])).
      apply orderly_app; [split; exact I|]. apply orderly_app.
      + apply (orderly_objs t); auto.
        * clear -K. induction (map key os) as [|k l IHl]; [constructor|]. cbn in K. inversion K as [|? ? K1 K2]; subst. constructor; auto. intros C; apply K1. apply in_or_app; auto.
        * intros C. apply in_app_or in C as [C|[C|[]]]; [|discriminate]. apply (A t); [left; auto|auto].
        * intros o Ho. rewrite arrived_snoc, app_nil_r. apply F. apply in_or_app; auto.
      + split; [|exact I]. split; auto. intros C. apply in_app_or in C as [C|C].
        * apply in_app_or in C as [C|[C|[]]]; [|discriminate]. apply (A t); [left; auto|auto].
        * apply in_map_iff in C as (? & C & _). discriminate.
    - apply IH; auto.
      + intros; apply W; right; auto.
      + intros t' Ht' C. apply in_app_or in C as [C|C]; [apply (A t'); [right; auto|auto]|].
        unfold bracket in C. cbn [fst snd] in C. destruct C as [C|C]; [discriminate|]. apply in_app_or in C as [C|[C|[]]].
        * apply in_map_iff in C as (? & C & _). discriminate.
        * injection C as <-. auto.
      + clear -K. induction (map key os) as [|k l IHl]; auto. cbn in K. inversion K; auto.
      + intros o Ho C. rewrite Ar, map_app in C. apply in_app_or in C as [C|C].
        * apply (F o); [apply in_or_app; auto|auto].
        * apply in_map_iff in C as (x & Ex & Hx). apply filter_In in Hx as [Hx _].
          assert (D : In (key o) (map key os)) by (rewrite <- Ex; apply in_map; auto). apply (in_map key) in Ho.
          clear -K D Ho. induction (map key os) as [|k l IHl]; [destruct D|]. cbn in K. inversion K as [|? ? K1 K2]; subst.
          destruct D as [->|D]; [|auto]. apply K1. apply in_or_app; auto.
  Qed.
  Lemma orderly_file runs : sorted_file runs -> orderly [] (file_calls runs).
  Proof.
    intros (N & W & K). unfold file_calls. split; [exact I|]. apply orderly_app; [|split; exact I].
    apply orderly_runs; auto. intros t _ [C|[]]. discriminate.
  Qed.
End P2.

(** both passes together *)
Theorem assembler_correct : forall select keep want srt gs runs,
  sorts srt -> (forall g, In g gs -> well_typed g) -> sorted_file runs ->
  let a := r_handler (fst (parse (pass1 select keep srt) gs None (asm_new want))) in
  exists a' es, pass2_all want (file_calls runs) a = Ok (a', es) /\ List.length es = List.length (file_calls runs) /\
    forall p c q, file_calls runs = p ++ c :: q ->
      events_at keep want (filter select (first_relations gs)) p c (nth (List.length p) es []).
Proof.
  intros select keep want srt gs runs SR W SF a.
  pose proof (proj1 (pass1_ready keep select want srt SR gs W)) as R. fold a in R.
  apply (pass2_run keep want (filter select (first_relations gs)) (file_calls runs) [] a).
  - now apply ready_inv.
  - now apply orderly_file.
Qed.
