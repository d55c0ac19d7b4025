(** Proofs about ObjectStore and its ApplyHandler. *)
From Verif Require Import Base.Prelude Model.Osm Model.Handler Spec.OsmSpec Spec.HandlerSpec
  Proofs.OsmProofs Proofs.HandlerProofs Proofs.Handler2Proofs.

(** on objects with sensible ids, operator< is hist_lt and decidable *)
Section Order.
  Variable L : list object.
  Hypothesis K : keys_ok L.

  Lemma key_lt_hist a b : In a L -> In b L -> (key_lt a b <-> hist_lt a b).
  Proof.
    intros Ha Hb. destruct K as [NO NM]. unfold key_lt.
    assert (Ma : obj_id a <> int64_min) by (intros C; apply NM; rewrite <- C; now apply in_map).
    assert (Mb : obj_id b <> int64_min) by (intros C; apply NM; rewrite <- C; now apply in_map).
    rewrite obj_lt_true_spec by auto. unfold hist_lt; cbn [okey fst snd]. split.
    - intros [[A B]|[A B]]; auto.
    - intros [A|[A B]]; [right|left; auto]. split; auto. intros C; rewrite C in A; lia.
  Qed.
  Lemma less_total a b : In a L -> In b L -> exists r, obj_less a b = Ok r /\ (r = true <-> key_lt a b).
  Proof.
    intros Ha Hb. destruct K as [NO NM].
    assert (Ma : obj_id a <> int64_min) by (intros C; apply NM; rewrite <- C; now apply in_map).
    assert (Mb : obj_id b <> int64_min) by (intros C; apply NM; rewrite <- C; now apply in_map).
    destruct (obj_lt_total (obj_id a) (obj_version a) (obj_id b) (obj_version b) Ma Mb) as [r E].
    exists r. split; [exact E|]. unfold key_lt, obj_lt_true; cbn [okey fst snd]. rewrite E. split; congruence.
  Qed.
  Lemma hist_total a b : In a L -> In b L -> hist_lt a b \/ okey a = okey b \/ hist_lt b a.
  Proof.
    intros Ha Hb. destruct K as [NO NM]. unfold hist_lt, okey.
    destruct (Z.lt_trichotomy (Z.abs (obj_id a)) (Z.abs (obj_id b))) as [H|[H|H]]; auto.
    assert (E : obj_id a = obj_id b) by (apply NO; auto; now apply in_map).
    destruct (Z.lt_trichotomy (obj_version a) (obj_version b)) as [H1|[H1|H1]]; auto.
    right; left; congruence.
  Qed.
  Lemma hist_irrefl a b : okey a = okey b -> ~ hist_lt a b.
  Proof. unfold okey, hist_lt; intros E; injection E as E1 E2. rewrite E1, E2. lia. Qed.

  Lemma hist_sorted l : incl l L -> (StronglySorted key_lt l <-> StronglySorted hist_lt l).
  Proof.
    intros I. induction l as [|a l IH]; [split; constructor|].
    assert (Il : incl l L) by (intros x Hx; apply I; right; auto).
    assert (Ia : In a L) by (apply I; left; auto).
    split; intros H; inversion H as [|? ? H1 H2]; subst; constructor;
      try (apply IH; auto); rewrite Forall_forall in *; intros x Hx; apply key_lt_hist; auto.
  Qed.

  Lemma insert_spec o s : In o L -> incl s L -> StronglySorted hist_lt s ->
    exists s', oset_insert o s = Ok s' /\ StronglySorted hist_lt s' /\
      (forall x, In x s' <-> In x s \/ (x = o /\ forall y, In y s -> okey y <> okey o)).
  Proof.
    intros Ho. induction s as [|x r IH]; intros I S.
    - exists [o]. split; [reflexivity|]. split; [constructor; constructor|]. intros x; split.
      + intros [<-|[]]; right; auto.
      + intros [[]|[-> _]]; left; auto.
    - assert (Ix : In x L) by (apply I; left; auto).
      assert (Ir : incl r L) by (intros y Hy; apply I; right; auto).
      inversion S as [|? ? S1 S2]; subst. rewrite Forall_forall in S2.
      destruct (less_total o x Ho Ix) as (a & Ea & Ta). destruct (less_total x o Ix Ho) as (b & Eb & Tb).
      rewrite key_lt_hist in Ta, Tb by auto. cbn [oset_insert]. rewrite Ea; cbn [obind].
      destruct a.
      + exists (o :: x :: r). assert (H : hist_lt o x) by now apply Ta. split; [reflexivity|]. split.
        * constructor; auto. rewrite Forall_forall. intros y [<-|Hy]; auto. eapply hist_lt_trans; eauto.
        * intros y. split.
          -- intros [<-|Hy]; auto. right; split; auto. intros z [<-|Hz] E; symmetry in E; apply hist_irrefl in E; auto.
             apply E. eapply hist_lt_trans; eauto.
          -- intros [Hy|[-> _]]; [right; auto|left; auto].
      + rewrite Eb; cbn [obind]. destruct b.
        * assert (H : hist_lt x o) by now apply Tb.
          destruct (IH Ir S1) as (r' & E & S' & M). rewrite E; cbn [obind]. exists (x :: r'). split; [reflexivity|]. split.
          -- constructor; auto. rewrite Forall_forall. intros y Hy. apply M in Hy as [Hy|[-> _]]; auto.
          -- intros y. cbn [In]. rewrite M. split.
             ++ intros [<-|[Hy|[-> Hn]]]; auto. right; split; auto. intros z [<-|Hz]; auto.
                intros E1. apply hist_irrefl in E1; auto.
             ++ intros [[<-|Hy]|[-> Hn]]; auto. right; right; split; auto.
        * exists (x :: r). split; [reflexivity|]. split; auto. intros y. split; auto.
          intros [Hy|[-> Hn]]; auto. exfalso. apply (Hn x (or_introl eq_refl)).
          destruct (hist_total x o Ix Ho) as [H|[H|H]]; auto.
          -- apply Tb in H; discriminate. -- apply Ta in H; discriminate.
  Qed.
End Order.

Lemma is_first_snoc (P : object -> Prop) l n o : (forall x, P x \/ ~ P x) ->
  (is_first P (l ++ [n]) o <-> is_first P l o \/ (o = n /\ P n /\ forall y, In y l -> ~ P y)).
Proof.
  intros Dec. unfold is_first. split.
  - intros (l1 & l2 & E & Hp & Hn). destruct l2 as [|x l2] using rev_ind.
    + apply app_inj_tail in E as [-> ->]. right; auto.
    + clear IHl2. rewrite app_comm_cons, app_assoc in E. apply app_inj_tail in E as [-> ->]. left. eauto.
  - intros [(l1 & l2 & -> & Hp & Hn)|(-> & Hp & Hn)].
    + exists l1, (l2 ++ [n]). repeat split; auto. now rewrite <- app_assoc.
    + exists l, []. auto.
Qed.
Lemma is_first_exists (P : object -> Prop) l : (forall x, P x \/ ~ P x) ->
  (exists y, In y l /\ P y) -> exists o, is_first P l o.
Proof.
  intros Dec (y & Hy & Py). induction l as [|x r IH]; [destruct Hy|].
  destruct (Dec x) as [Px|Nx].
  - exists x, [], r. repeat split; auto.
  - destruct Hy as [->|Hy]; [contradiction|]. destruct (IH Hy) as (o & l1 & l2 & -> & Po & Hn).
    exists o, (x :: l1), l2. repeat split; auto. intros z [<-|Hz]; auto.
Qed.
Lemma okey_dec (a b : object) : okey a = okey b \/ okey a <> okey b.
Proof.
  destruct (okey a) as [i v], (okey b) as [j w]. destruct (Z.eq_dec i j); [|right; congruence].
  destruct (Z.eq_dec v w); [left|right]; congruence.
Qed.

Lemma keys_ok_incl l l' : incl l' l -> keys_ok l -> keys_ok l'.
Proof.
  intros I [A B]. split.
  - intros x y Hx Hy. apply A; (eapply incl_map; [exact I|]); auto.
  - intros C; apply B. eapply incl_map; eauto.
Qed.

(** a set holds the firsts of what was inserted *)
Lemma insert_all L : keys_ok L -> forall l n x, incl (l ++ [n]) L -> firsts_sorted l x ->
  exists x', oset_insert n x = Ok x' /\ firsts_sorted (l ++ [n]) x'.
Proof.
  intros K l n x I [S M].
  assert (Il : incl l L) by (intros y Hy; apply I, in_or_app; auto).
  assert (In_ : In n L) by (apply I, in_or_app; right; left; auto).
  assert (Ix : incl x L).
  { intros y Hy. apply M in Hy as (l1 & l2 & -> & _ & _). apply Il, in_or_app; right; left; auto. }
  destruct (insert_spec L K n x In_ Ix (proj1 (hist_sorted L K x Ix) S)) as (x' & E & S' & M').
  exists x'. split; auto.
  assert (Ix' : incl x' L) by (intros y Hy; apply M' in Hy as [Hy|[-> _]]; auto).
  split; [now apply (hist_sorted L K)|].
  intros o. rewrite M', is_first_snoc by (intros; apply okey_dec). rewrite M. split.
  - intros [H|[-> H]]; auto. right. repeat split; auto. intros y Hy E1.
    destruct (is_first_exists (fun p => okey p = okey n) l) as (f & F); [intros; apply okey_dec|eauto|].
    assert (Ff : okey f = okey n) by (destruct F as (? & ? & _ & Pf & _); exact Pf).
    apply (H f); auto. apply M. destruct F as (l1 & l2 & E2 & Pf & Hn). exists l1, l2.
    split; [exact E2|]. split; [reflexivity|]. intros z Hz. rewrite Ff. auto.
  - intros [H|(-> & _ & H)]; auto. right; split; auto. intros y Hy. apply M in Hy as (l1 & l2 & E2 & _ & _).
    apply H. rewrite E2. apply in_or_app; right; left; auto.
Qed.


Lemma ofilter_app t a b : ofilter t (a ++ b) = ofilter t a ++ ofilter t b.
Proof. unfold ofilter. apply filter_app. Qed.

Theorem store_contents : forall l, types_ok l ->
  exists ns ws rs, ostore_add_all l ostore_new = Ok (mkOS ns ws rs) /\
    firsts_sorted (ofilter NODE l) ns /\ firsts_sorted (ofilter WAY l) ws /\ firsts_sorted (ofilter RELATION l) rs.
Proof.
  intros l (KN & KW & KR).
  assert (G : forall todo done ns ws rs, l = done ++ todo ->
    firsts_sorted (ofilter NODE done) ns -> firsts_sorted (ofilter WAY done) ws -> firsts_sorted (ofilter RELATION done) rs ->
    exists ns' ws' rs', ostore_add_all todo (mkOS ns ws rs) = Ok (mkOS ns' ws' rs') /\
      firsts_sorted (ofilter NODE l) ns' /\ firsts_sorted (ofilter WAY l) ws' /\ firsts_sorted (ofilter RELATION l) rs').
  2:{ assert (F : forall t, firsts_sorted (ofilter t []) []).
      { intros t. split; [apply SSorted_nil|]. intros o; split; [intros []|].
        intros (l1 & l2 & E & _); destruct l1; discriminate. }
      apply (G l [] [] [] []); auto. }
  induction todo as [|o r IH]; intros done ns ws rs E FN FW FR.
  - rewrite app_nil_r in E; subst. exists ns, ws, rs. auto.
  - assert (E' : l = (done ++ [o]) ++ r) by (rewrite <- app_assoc; exact E).
    assert (I : forall t, incl (ofilter t (done ++ [o])) (ofilter t l)).
    { intros t. rewrite E', (ofilter_app t (done ++ [o]) r). intros x Hx. apply in_or_app; auto. }
    pose proof (IH (done ++ [o])) as IHo. rewrite !ofilter_app in IHo.
    pose proof (fun t => I t) as J. setoid_rewrite ofilter_app in J.
    destruct o as [n|w|rl]; cbn [ostore_add_all ostore_add ofilter filter obj_type otype_eqb] in *; rewrite ?app_nil_r in IHo;
      cbn [os_nodes os_ways os_rels].
    + specialize (J NODE). cbn [ofilter filter obj_type otype_eqb] in J.
      destruct (insert_all _ KN _ (ONode n) ns J FN) as (x' & Ex & F'). rewrite Ex; cbn [obind]. apply IHo; auto.
    + specialize (J WAY). cbn [ofilter filter obj_type otype_eqb] in J.
      destruct (insert_all _ KW _ (OWay w) ws J FW) as (x' & Ex & F'). rewrite Ex; cbn [obind]. apply IHo; auto.
    + specialize (J RELATION). cbn [ofilter filter obj_type otype_eqb] in J.
      destruct (insert_all _ KR _ (ORel rl) rs J FR) as (x' & Ex & F'). rewrite Ex; cbn [obind]. apply IHo; auto.
Qed.

(** executing calls *)
Lemma exec_app T S (next : callback -> S -> S * option halt) (l1 l2 : list (act T)) ts ts1 :
  exec next l1 ts = (ts1, None) -> exec next (l1 ++ l2) ts = exec next l2 ts1.
Proof.
  revert ts; induction l1 as [|a r IH]; intros ts; cbn; [now intros [= ->]|].
  destruct a as [c|t|].
  - destruct (next c (snd ts)) as [s' [h|]]; [discriminate|auto].
  - auto.
  - discriminate.
Qed.
Lemma exec_objs T S (next : callback -> S -> S * option halt) (t : T) os s s1 :
  takes next (map CObj os) s s1 -> exec next (map (fun o => ACall (CObj o)) os) (t, s) = ((t, s1), None).
Proof.
  revert s; induction os as [|o r IH]; intros s H.
  - apply takes_nil in H as ->. reflexivity.
  - apply takes_cons in H as (s2 & E & H). cbn [map]. rewrite (exec_call _ _ _ _ _ _ _ s2) by exact E. auto.
Qed.

Lemma exec_bracket T S (next : callback -> S -> S * option halt) (t : T) ty os s s1 rest :
  takes next (bracket (ty, os)) s s1 ->
  exec next (ACall (CBefore ty) :: map (fun o => ACall (CObj o)) os ++ ACall (CAfter ty) :: rest) (t, s) =
  exec next rest (t, s1).
Proof.
  unfold bracket; cbn [fst snd]. intros H. apply takes_cons in H as (s2 & E & H).
  apply takes_app in H as (s3 & H1 & H2). apply takes_one in H2.
  rewrite (exec_call _ _ _ _ _ _ _ s2) by exact E.
  rewrite (exec_app _ _ _ _ _ _ _ (exec_objs _ _ next t os s2 s3 H1)).
  now rewrite (exec_call _ _ _ _ _ _ _ s1) by exact H2.
Qed.

Theorem feed_calls : forall ns ws rs clear S (next : callback -> S -> S * option halt) s s',
  takes next (CInit :: bracket (NODE, ns) ++ bracket (WAY, ws) ++ bracket (RELATION, rs) ++ [CFinal]) s s' ->
  exec next (feed_prog clear (mkOS ns ws rs)) (mkOS ns ws rs, s) =
  ((if clear then ostore_new else mkOS ns ws rs, s'), None).
Proof.
  intros ns ws rs clear S next s s' H.
  apply takes_cons in H as (s1 & E1 & H). apply takes_app in H as (s2 & H1 & H).
  apply takes_app in H as (s3 & H2 & H). apply takes_app in H as (s4 & H3 & H4). apply takes_one in H4.
  unfold feed_prog. cbn [os_nodes os_ways os_rels app].
  rewrite (exec_call _ _ _ _ _ _ _ s1) by exact E1. rewrite (exec_bracket _ _ next _ NODE ns s1 s2) by exact H1.
  destruct clear; cbn [app].
  - rewrite exec_put; cbn [snd]. rewrite (exec_bracket _ _ next _ WAY ws s2 s3) by exact H2.
    rewrite exec_put; cbn [snd]. rewrite (exec_bracket _ _ next _ RELATION rs s3 s4) by exact H3.
    rewrite exec_put; cbn [snd]. now rewrite (exec_call _ _ _ _ _ _ _ s') by exact H4.
  - rewrite (exec_bracket _ _ next _ WAY ws s2 s3) by exact H2.
    rewrite (exec_bracket _ _ next _ RELATION rs s3 s4) by exact H3.
    now rewrite (exec_call _ _ _ _ _ _ _ s') by exact H4.
Qed.

Lemma exec_made T S (next : callback -> S -> S * option halt) (t : T) rest cs : forall s,
  exec next (map ACall cs ++ rest) (t, s) =
  match feed next cs s with (_, s1, None) => exec next rest (t, s1) | (_, s1, Some h) => ((t, s1), Some h) end.
Proof.
  induction cs as [|c cs IH]; intros s; [reflexivity|]. cbn [map app exec feed snd fst]. destruct (next c s) as [s1 [h|]]; [reflexivity|].
  rewrite IH. destruct (feed next cs s1) as [[m s2] h]. reflexivity.
Qed.
Lemma feed_app S (next : callback -> S -> S * option halt) b a : forall s,
  feed next (a ++ b) s = match feed next a s with
    | (m, s1, None) => let '(m2, s2, h) := feed next b s1 in (m ++ m2, s2, h) | (m, s1, Some h) => (m, s1, Some h) end.
Proof.
  induction a as [|c a IH]; intros s; cbn [app feed]; [destruct (feed next b s) as [[m s1] h]; reflexivity|].
  destruct (next c s) as [s1 [h|]]; [reflexivity|]. rewrite IH. destruct (feed next a s1) as [[m s2] [h|]]; [reflexivity|].
  destruct (feed next b s2) as [[m2 s3] h]. reflexivity.
Qed.
Lemma feed_all S (next : callback -> S -> S * option halt) cs : forall s m s1, feed next cs s = (m, s1, None) -> m = cs.
Proof.
  induction cs as [|c cs IH]; intros s m s1; cbn [feed]; [intros [= <-]; reflexivity|].
  destruct (next c s) as [s2 [h|]]; [discriminate|]. destruct (feed next cs s2) as [[m2 s3] h] eqn:E. intros [= <- -> ->].
  f_equal. exact (IH _ _ _ E).
Qed.
Lemma feed_part S (next : callback -> S -> S * option halt) cs c : forall s m s1 h, feed next (cs ++ [c]) s = (m, s1, Some h) ->
  m <> [] /\ exists k, removelast m = firstn k cs.
Proof.
  induction cs as [|x cs IH]; intros s m s1 h; cbn [app feed].
  - destruct (next c s) as [s2 [y|]]; [intros [= <- _ _]|discriminate]. split; [discriminate|exists O; reflexivity].
  - destruct (next x s) as [s2 [y|]]; [intros [= <- _ _]; split; [discriminate|exists O; reflexivity]|].
    destruct (feed next (cs ++ [c]) s2) as [[m2 s3] y] eqn:E. intros [= <- -> ->]. destruct (IH _ _ _ _ E) as (N & k & K).
    split; [discriminate|]. exists (Datatypes.S k). cbn [firstn]. rewrite <- K. destruct m2; [contradiction|reflexivity].
Qed.
Lemma left_app t l a b : left_of t l (a ++ b) = left_of t (left_of t l a) b.
Proof. unfold left_of. rewrite existsb_app. destruct (existsb _ a), (existsb _ b); reflexivity. Qed.
Lemma left_none t l cs : (forall u, ~ In (CAfter u) cs) -> left_of t l cs = l.
Proof.
  intros H. unfold left_of. destruct (existsb _ cs) eqn:E; [|reflexivity]. apply existsb_exists in E as (c & I & E).
  destruct c; try discriminate E. destruct (H _ I).
Qed.
Lemma left_part t l k cs : (forall u, ~ In (CAfter u) cs) -> left_of t l (firstn k cs) = l.
Proof.
  intros H. apply left_none. intros u I. apply (H u). rewrite <- (firstn_skipn k cs). apply in_app_iff. left. exact I.
Qed.
Lemma no_after a ty os : (forall u, ~ In (CAfter u) a) -> forall u, ~ In (CAfter u) (a ++ CBefore ty :: map CObj os).
Proof.
  intros H u I. apply in_app_iff in I as [I|[I|I]]; [exact (H u I)|discriminate I|]. apply in_map_iff in I as (o & E & _). discriminate E.
Qed.
Lemma left_whole t l a ty os : (forall u, ~ In (CAfter u) a) ->
  left_of t l ((a ++ CBefore ty :: map CObj os) ++ [CAfter ty]) = if otype_eqb ty t then [] else l.
Proof.
  intros H. rewrite left_app, (left_none _ _ (_ ++ _)) by (apply no_after; exact H). unfold left_of. cbn [existsb]. rewrite orb_false_r. reflexivity.
Qed.
Theorem feed_stops : forall ns ws rs clear S (next : callback -> S -> S * option halt) s m s' h,
  feed next (CInit :: bracket (NODE, ns) ++ bracket (WAY, ws) ++ bracket (RELATION, rs) ++ [CFinal]) s = (m, s', h) ->
  exec next (feed_prog clear (mkOS ns ws rs)) (mkOS ns ws rs, s) =
  ((if clear then mkOS (left_of NODE ns (returned m h)) (left_of WAY ws (returned m h)) (left_of RELATION rs (returned m h)) else mkOS ns ws rs, s'), h).
Proof.
  intros ns ws rs clear S next s m s' h E.
  set (A1 := [CInit] ++ CBefore NODE :: map CObj ns). set (A2 := [] ++ CBefore WAY :: map CObj ws). set (A3 := [] ++ CBefore RELATION :: map CObj rs).
  assert (N1 : forall u, ~ In (CAfter u) A1) by (apply no_after; intros u [X|[]]; discriminate X).
  assert (N2 : forall u, ~ In (CAfter u) A2) by (apply no_after; intros u []).
  assert (N3 : forall u, ~ In (CAfter u) A3) by (apply no_after; intros u []).
  replace (CInit :: _) with ((A1 ++ [CAfter NODE]) ++ (A2 ++ [CAfter WAY]) ++ (A3 ++ [CAfter RELATION]) ++ [CFinal]) in E
    by (unfold A1, A2, A3, bracket; cbn [fst snd app]; rewrite <- !app_assoc; reflexivity).
  assert (W1 : forall t l, left_of t l (A1 ++ [CAfter NODE]) = if otype_eqb NODE t then [] else l)
    by (intros; apply left_whole; intros u [X|[]]; discriminate X).
  assert (W2 : forall t l, left_of t l (A2 ++ [CAfter WAY]) = if otype_eqb WAY t then [] else l) by (intros; apply left_whole; intros u []).
  assert (W3 : forall t l, left_of t l (A3 ++ [CAfter RELATION]) = if otype_eqb RELATION t then [] else l) by (intros; apply left_whole; intros u []).
  assert (Q : feed_prog clear (mkOS ns ws rs) = map ACall (A1 ++ [CAfter NODE]) ++ (if clear then [APut (mkOS [] ws rs)] else [])
    ++ map ACall (A2 ++ [CAfter WAY]) ++ (if clear then [APut (mkOS [] [] rs)] else [])
    ++ map ACall (A3 ++ [CAfter RELATION]) ++ (if clear then [APut (mkOS [] [] [])] else []) ++ map ACall [CFinal] ++ []).
  { unfold feed_prog, A1, A2, A3. cbn [os_nodes os_ways os_rels app map]. rewrite !map_app. cbn [map app]. rewrite !map_map, <- !app_assoc. cbn [app]. reflexivity. }
  rewrite Q. clear Q. clearbody A1 A2 A3. rewrite feed_app in E. rewrite exec_made.
  destruct (feed next (A1 ++ [CAfter NODE]) s) as [[m1 s1] [h1|]] eqn:E1.
  { injection E as <- <- <-. destruct (feed_part _ _ _ _ _ _ _ _ E1) as (_ & k & K). unfold returned. rewrite K, !left_part by assumption. destruct clear; reflexivity. }
  apply feed_all in E1. subst m1. rewrite feed_app in E.
  assert (P2 : forall rest, exec next ((if clear then [APut (mkOS [] ws rs)] else []) ++ rest) (mkOS ns ws rs, s1) = exec next rest (if clear then mkOS [] ws rs else mkOS ns ws rs, s1))
    by (intros; destruct clear; reflexivity).
  rewrite P2, exec_made. clear P2.
  destruct (feed next (A2 ++ [CAfter WAY]) s1) as [[m2 s2] [h2|]] eqn:E2.
  { injection E as <- <- <-. destruct (feed_part _ _ _ _ _ _ _ _ E2) as (N & k & K). unfold returned. rewrite removelast_app by exact N.
    rewrite K, !(left_app _ _ (A1 ++ _)), !W1, !left_part by assumption. destruct clear; reflexivity. }
  apply feed_all in E2. subst m2. rewrite feed_app in E.
  assert (P2 : forall rest, exec next ((if clear then [APut (mkOS [] [] rs)] else []) ++ rest) (if clear then mkOS [] ws rs else mkOS ns ws rs, s2) = exec next rest (if clear then mkOS [] [] rs else mkOS ns ws rs, s2))
    by (intros; destruct clear; reflexivity).
  rewrite P2, exec_made. clear P2.
  destruct (feed next (A3 ++ [CAfter RELATION]) s2) as [[m3 s3] [h3|]] eqn:E3.
  { injection E as <- <- <-. destruct (feed_part _ _ _ _ _ _ _ _ E3) as (N & k & K). unfold returned.
    rewrite removelast_app by (intros X; apply app_eq_nil in X as [X _]; apply app_eq_nil in X as [_ X]; discriminate X). rewrite removelast_app by exact N.
    rewrite K, !(left_app _ _ (A1 ++ _)), !(left_app _ _ (A2 ++ _)), !W1, !W2, !left_part by assumption. destruct clear; reflexivity. }
  apply feed_all in E3. subst m3.
  assert (P2 : forall rest, exec next ((if clear then [APut (mkOS [] [] [])] else []) ++ rest) (if clear then mkOS [] [] rs else mkOS ns ws rs, s3) = exec next rest (if clear then mkOS [] [] [] else mkOS ns ws rs, s3))
    by (intros; destruct clear; reflexivity).
  rewrite P2, exec_made. clear P2. cbn [feed] in E |- *. destruct (next CFinal s3) as [s4 [h4|]]; cbn [exec] in *; injection E as <- <- <-.
  - unfold returned. do 3 (rewrite removelast_app by (intros X; repeat match type of X with _ ++ _ = [] => apply app_eq_nil in X as [_ X] end; discriminate X)). cbn [removelast].
    rewrite !(left_app _ _ (A1 ++ _)), !(left_app _ _ (A2 ++ _)), !(left_app _ _ (A3 ++ _)), !W1, !W2, !W3. destruct clear; reflexivity.
  - unfold returned. rewrite !(left_app _ _ (A1 ++ _)), !(left_app _ _ (A2 ++ _)), !(left_app _ _ (A3 ++ _)), !W1, !W2, !W3. destruct clear; reflexivity.
Qed.

(* ---- C20 ---- *)
Fixpoint take_less (left : oset) (o : object) : list object * oset :=
  match left with
  | [] => ([], [])
  | x :: r => match obj_less x o with Ok true => let (a, b) := take_less r o in (x :: a, b) | _ => ([], left) end
  end.
Fixpoint merge (left : oset) (os : list object) : list object * oset :=
  match os with
  | [] => ([], left)
  | o :: r => let (a, b) := take_less left o in let (m, l) := merge b r in (a ++ o :: m, l)
  end.

Lemma os_put_put t x y s : os_put t x (os_put t y s) = os_put t x s.
Proof. destruct t; reflexivity. Qed.
Lemma os_get_put t x s : object_type t -> os_get t (os_put t x s) = x.
Proof. intros [->|[->| ->]]; reflexivity. Qed.
Lemma os_put_get t s : os_put t (os_get t s) s = s.
Proof. destruct t, s; reflexivity. Qed.

Section Apply.
  Variable L : list object.
  Hypothesis K : keys_ok L.
  Context {S : Type}.
  Variable next : callback -> S -> S * option halt.

  Lemma exec_less st t o : In o L -> forall left s s', incl left L ->
    takes next (map CObj (fst (take_less left o)) ++ [CObj o]) s s' ->
    exec next (apply_less st t left o) (mkAS (as_store st) (os_put t left (as_left st)), s) =
    ((mkAS (as_store st) (os_put t (snd (take_less left o)) (as_left st)), s'), None).
  Proof.
    intros Ho. induction left as [|x r IH]; intros s s' I H.
    - cbn in H |- *. apply takes_one in H. now rewrite H.
    - assert (Ix : In x L) by (apply I; left; auto).
      destruct (less_total L K x o Ix Ho) as (b & E & _). cbn [take_less apply_less] in *. rewrite E in *.
      destruct b.
      + destruct (take_less r o) as [a c] eqn:T. cbn [fst snd map app] in *. apply takes_cons in H as (s1 & E1 & H).
        rewrite exec_put; cbn [snd]. rewrite (exec_call _ _ _ _ _ _ _ s1) by exact E1.
        rewrite (IH s1 s'); auto. intros y Hy; apply I; right; auto.
      + cbn [fst snd map app] in *. apply takes_one in H. cbn. now rewrite H.
  Qed.
  Lemma take_less_split left o : left = fst (take_less left o) ++ snd (take_less left o).
  Proof.
    induction left as [|x r IH]; [reflexivity|]. cbn. destruct (obj_less x o) as [[]| | |]; try reflexivity.
    destruct (take_less r o) as [a b]; cbn in *. now rewrite IH.
  Qed.

  Lemma exec_merge store t rest : object_type t -> forall os left s s', incl os L -> incl left L ->
    (forall o, In o os -> obj_type o = t) ->
    takes next (map CObj (fst (merge left os))) s s' ->
    takes (stacked next apply_prog) (map CObj os) (mkAS store (os_put t left rest), s)
          (mkAS store (os_put t (snd (merge left os)) rest), s').
  Proof.
    intros Tt. induction os as [|o r IH]; intros left s s' Io Il Ht H.
    - apply takes_nil in H as ->. now apply takes_nil.
    - cbn [merge] in *. destruct (take_less left o) as [a b] eqn:TL. destruct (merge b r) as [m l] eqn:M. cbn [fst snd] in *.
      assert (Ho : In o L) by (apply Io; left; auto).
      replace (map CObj (a ++ o :: m)) with ((map CObj a ++ [CObj o]) ++ map CObj m) in H
        by (rewrite map_app, <- app_assoc; reflexivity).
      apply takes_app in H as (s1 & H1 & H2). cbn [map]. apply takes_cons.
      exists (mkAS store (os_put t b rest), s1). split.
      + unfold stacked, apply_prog; cbn [fst]. rewrite (Ht o (or_introl eq_refl)). cbn [as_left].
        rewrite os_get_put by auto.
        pose proof (exec_less (mkAS store (os_put t left rest)) t o Ho left s s1 Il) as X.
        cbn [as_store as_left] in X. rewrite !os_put_put, TL in X. cbn [fst snd] in X. apply X. exact H1.
      + specialize (IH b s1 s'). rewrite M in IH. apply IH; auto.
        * intros y Hy; apply Io; right; auto.
        * intros y Hy; apply Il. rewrite (take_less_split left o), TL. apply in_or_app; right; auto.
        * intros y Hy; apply Ht; right; auto.
  Qed.
  Lemma exec_rest st t : forall left s s',
    takes next (map CObj left) s s' ->
    exec next (apply_rest st t left) (mkAS (as_store st) (os_put t left (as_left st)), s) =
    ((mkAS (as_store st) (os_put t [] (as_left st)), s'), None).
  Proof.
    induction left as [|x r IH]; intros s s' H.
    - apply takes_nil in H as ->. reflexivity.
    - cbn [map] in H. apply takes_cons in H as (s1 & E & H). cbn [apply_rest]. rewrite exec_put; cbn [snd].
      rewrite (exec_call _ _ _ _ _ _ _ s1) by exact E. auto.
  Qed.

  Definition merged (left os : list object) : list object := fst (merge left os) ++ snd (merge left os).

  Lemma apply_run store rest t os s s' : object_type t -> incl os L -> incl (os_get t rest) L ->
    (forall o, In o os -> obj_type o = t) ->
    takes next (bracket (t, merged (os_get t rest) os)) s s' ->
    takes (stacked next apply_prog) (bracket (t, os)) (mkAS store rest, s)
          (mkAS (os_put t [] store) (os_put t [] rest), s').
  Proof.
    intros Tt Io Il Ht H. unfold bracket in *; cbn [fst snd] in *.
    apply takes_cons in H as (s1 & E & H). apply takes_cons. exists (mkAS store rest, s1). split.
    { unfold stacked, apply_prog; cbn [fst]. now rewrite (exec_call _ _ _ _ _ _ _ s1) by exact E. }
    unfold merged in H. rewrite map_app, <- app_assoc in H.
    apply takes_app in H as (s2 & H1 & H). apply takes_app in H as (s3 & H2 & H3). apply takes_one in H3.
    apply takes_app. exists (mkAS store (os_put t (snd (merge (os_get t rest) os)) rest), s2). split.
    - rewrite <- (os_put_get t rest) at 1. apply exec_merge; auto.
    - apply takes_one. unfold stacked, apply_prog; cbn [fst as_left as_store]. rewrite os_get_put by auto.
      set (left := snd (merge (os_get t rest) os)) in *.
      pose proof (exec_rest (mkAS store (os_put t left rest)) t left s2 s3 H2) as X. cbn [as_store as_left] in X.
      rewrite !os_put_put in X. rewrite (exec_app _ _ _ _ _ _ _ X).
      rewrite (exec_call _ _ _ _ _ _ _ s') by exact H3. rewrite !os_put_put. reflexivity.
  Qed.

  (* the result is a sorted permutation *)
  Lemma merge_perm os : forall left, Permutation (merged left os) (left ++ os).
  Proof.
    unfold merged. induction os as [|o r IH]; intros left; cbn [merge].
    - cbn. now rewrite app_nil_r.
    - pose proof (take_less_split left o) as TS. destruct (take_less left o) as [a b]. cbn [fst snd] in TS. subst left.
      specialize (IH b). destruct (merge b r) as [m l]. cbn [fst snd] in *.
      rewrite <- !app_assoc. apply Permutation_app_head. cbn [app].
      transitivity (o :: b ++ r); [constructor; exact IH|]. apply Permutation_middle.
  Qed.

  Definition nlt (a b : object) : Prop := ~ hist_lt b a.
  Lemma nlt_trans a b c : In a L -> In b L -> In c L -> nlt a b -> nlt b c -> nlt a c.
  Proof.
    unfold nlt; intros Ha Hb Hc H1 H2 H3.
    destruct (hist_total L K b a Hb Ha) as [H|[H|H]]; [auto| |].
    - apply H2. unfold hist_lt, okey in *. injection H as E1 E2. rewrite E1, E2. auto.
    - apply H2. eapply hist_lt_trans; eauto.
  Qed.
  Lemma hist_nlt a b : hist_lt a b -> nlt a b.
  Proof. unfold nlt, hist_lt. intros H1 H2. lia. Qed.

  Lemma take_less_props left o : incl left L -> In o L -> StronglySorted hist_lt left ->
    (forall x, In x (fst (take_less left o)) -> hist_lt x o) /\
    (forall x, In x (snd (take_less left o)) -> nlt o x).
  Proof.
    intros Il Ho. induction left as [|x r IH]; intros SS; cbn; [split; intros ? []|].
    assert (Ix : In x L) by (apply Il; left; auto).
    inversion SS as [|? ? S1 S2]; subst. rewrite Forall_forall in S2.
    destruct (less_total L K x o Ix Ho) as (b & E & T). rewrite E. rewrite (key_lt_hist L K) in T by auto.
    destruct b.
    - assert (Ir : incl r L) by (intros y Hy; apply Il; right; auto).
      destruct (IH Ir S1) as [A B]. destruct (take_less r o) as [a c]; cbn [fst snd] in *. split; auto.
      intros y [<-|Hy]; auto. now apply T.
    - cbn [fst snd]. split; [intros ? []|]. assert (N : nlt o x) by (intros H; apply T in H; discriminate).
      intros y [<-|Hy]; auto. apply nlt_trans with x; auto; [apply Il; right; auto|]. apply hist_nlt; auto.
  Qed.

  Lemma sorted_app_intro A (R : A -> A -> Prop) l1 l2 : StronglySorted R l1 -> StronglySorted R l2 ->
    (forall x y, In x l1 -> In y l2 -> R x y) -> StronglySorted R (l1 ++ l2).
  Proof.
    intros H1 H2 H. induction l1 as [|a l1 IH]; auto. inversion H1; subst. cbn. constructor.
    - apply IH; auto. intros; apply H; auto; right; auto.
    - rewrite Forall_forall in *. intros x Hx. apply in_app_or in Hx as [Hx|Hx]; auto. apply H; auto; left; auto.
  Qed.
  Lemma sorted_app_elim A (R : A -> A -> Prop) l1 l2 : StronglySorted R (l1 ++ l2) ->
    StronglySorted R l1 /\ StronglySorted R l2 /\ (forall x y, In x l1 -> In y l2 -> R x y).
  Proof.
    induction l1 as [|a l1 IH]; intros H; cbn in H.
    - repeat split; auto; [constructor|]. intros ? ? [].
    - inversion H as [|? ? H1 H2]; subst. destruct (IH H1) as (A1 & A2 & A3). rewrite Forall_forall in H2.
      repeat split; auto.
      + constructor; auto. rewrite Forall_forall. intros x Hx; apply H2, in_or_app; auto.
      + intros x y [<-|Hx] Hy; auto. apply H2, in_or_app; auto.
  Qed.

  Lemma sorted_weaken A (R R' : A -> A -> Prop) l : (forall a b, In a l -> In b l -> R a b -> R' a b) -> StronglySorted R l -> StronglySorted R' l.
  Proof.
    intros W H; induction H as [|a l S1 IH F]; constructor.
    - apply IH. intros; apply W; auto; right; auto.
    - rewrite Forall_forall in *. intros x Hx; apply W; auto; [left; auto|right; auto].
  Qed.

  Lemma merge_sorted os : forall left, incl left L -> incl os L ->
    StronglySorted hist_lt left -> StronglySorted nlt os -> StronglySorted nlt (merged left os).
  Proof.
    induction os as [|o r IH]; intros left Il Io SL SO.
    - unfold merged; cbn. eapply sorted_weaken; [|exact SL]. intros; now apply hist_nlt.
    - assert (Ho : In o L) by (apply Io; left; auto).
      assert (Ir : incl r L) by (intros y Hy; apply Io; right; auto).
      pose proof (take_less_split left o) as TS. destruct (take_less_props left o Il Ho SL) as [T1 T2].
      unfold merged; cbn [merge]. destruct (take_less left o) as [a b] eqn:TL. cbn [fst snd] in *.
      inversion SO as [|? ? SO1 SO2]; subst. rewrite Forall_forall in SO2.
      destruct (sorted_app_elim _ _ _ _ SL) as (SA & SB & SAB).
      assert (Ib : incl b L) by (intros y Hy; apply Il, in_or_app; auto).
      assert (Ia : incl a L) by (intros y Hy; apply Il, in_or_app; auto).
      specialize (IH b Ib Ir SB SO1). pose proof (merge_perm r b) as P. unfold merged in IH, P.
      destruct (merge b r) as [m l]. cbn [fst snd] in *.
      assert (Mem : forall y, In y (m ++ l) -> nlt o y /\ In y L).
      { intros y Hy. apply (Permutation_in _ P) in Hy. apply in_app_or in Hy as [Hy|Hy]; auto. }
      rewrite <- app_assoc. apply sorted_app_intro.
      + eapply sorted_weaken; [|exact SA]. intros; now apply hist_nlt.
      + cbn. constructor; auto. rewrite Forall_forall. intros y Hy; apply Mem; auto.
      + intros x y Hx [<-|Hy]; [apply hist_nlt; auto|]. destruct (Mem y Hy) as [M1 M2].
        apply nlt_trans with o; auto. apply hist_nlt; auto.
  Qed.
  Lemma nlt_key l : incl l L -> (StronglySorted nlt l <-> key_sorted l).
  Proof.
    intros I; split; apply sorted_weaken; intros a b Ha Hb H C; apply H; now apply (key_lt_hist L K); auto.
  Qed.
End Apply.


Lemma os_get_other t t' x s : t <> t' -> os_get t (os_put t' x s) = os_get t s.
Proof. destruct t, t'; intros; try reflexivity; congruence. Qed.

Theorem apply_merges : forall st runs, NoDup (map fst runs) -> (forall r, In r runs -> run_ok st r) ->
  exists outs, Forall2 (merge_of st) runs outs /\
    forall S (next : callback -> S -> S * option halt) s s',
      takes next (CInit :: flat_map bracket outs ++ [CFinal]) s s' ->
      exists st', takes (stacked next apply_prog) (CInit :: flat_map bracket runs ++ [CFinal]) (apply_new st, s) (st', s').
Proof.
  intros st runs ND OK. exists (map (fun r => (fst r, merged (os_get (fst r) st) (snd r))) runs). split.
  - clear ND. induction runs as [|r rs IH]; cbn; constructor; [|apply IH; intros; apply OK; right; auto].
    destruct (OK r (or_introl eq_refl)) as (W & KO & SS & KS). split; [reflexivity|]. cbn [fst snd].
    pose proof (merge_perm (snd r) (os_get (fst r) st)) as P. split; auto.
    set (L := os_get (fst r) st ++ snd r) in *.
    assert (I1 : incl (os_get (fst r) st) L) by (unfold L; intros y Hy; apply in_or_app; auto).
    assert (I2 : incl (snd r) L) by (unfold L; intros y Hy; apply in_or_app; auto).
    apply (nlt_key L KO). { intros y Hy. apply (Permutation_in _ P) in Hy; auto. }
    apply (merge_sorted L KO); auto.
    + now apply (hist_sorted L KO).
    + now apply (nlt_key L KO).
  - intros S next s s' H.
    assert (G : forall runs store rest s s1, NoDup (map fst runs) -> (forall r, In r runs -> run_ok st r) ->
      (forall r, In r runs -> os_get (fst r) rest = os_get (fst r) st) ->
      takes next (flat_map bracket (map (fun r => (fst r, merged (os_get (fst r) st) (snd r))) runs)) s s1 ->
      exists st', takes (stacked next apply_prog) (flat_map bracket runs) (mkAS store rest, s) (st', s1)).
    { clear. induction runs as [|r rs IH]; intros store rest s s1 ND OK EQ H; cbn [map flat_map] in *.
      - apply takes_nil in H as ->. exists (mkAS store rest). now apply takes_nil.
      - apply takes_app in H as (s2 & H1 & H2). inversion ND as [|? ? N1 N2]; subst.
        destruct (OK r (or_introl eq_refl)) as ((Tt & Ht) & KO & SS & KS).
        destruct r as [t os]; cbn [fst snd] in *. pose proof (EQ (t, os) (or_introl eq_refl)) as EQ1; cbn [fst] in EQ1. rewrite <- EQ1 in H1, KO.
        destruct (IH (os_put t [] store) (os_put t [] rest) s2 s1) as (st' & T'); auto.
        + intros r' Hr'; apply OK; right; auto.
        + intros r' Hr'. rewrite os_get_other; [apply EQ; right; auto|]. intros C. apply N1. rewrite <- C. now apply in_map.
        + exists st'. apply takes_app. eexists; split; [|exact T'].
          apply (apply_run (os_get t rest ++ os)); auto; intros y Hy; apply in_or_app; auto. }
    apply takes_cons in H as (s1 & E & H). apply takes_app in H as (s2 & H1 & H2). apply takes_one in H2.
    destruct (G runs st st s1 s2 ND OK (fun _ _ => eq_refl) H1) as (st' & T).
    exists st'. apply takes_cons. exists (apply_new st, s1). split.
    { unfold stacked, apply_prog; cbn [fst]. now rewrite (exec_call _ _ _ _ _ _ _ s1) by exact E. }
    apply takes_app. exists (st', s2). split; [exact T|]. apply takes_one.
    unfold stacked, apply_prog; cbn [fst]. now rewrite (exec_call _ _ _ _ _ _ _ s') by exact H2.
Qed.
