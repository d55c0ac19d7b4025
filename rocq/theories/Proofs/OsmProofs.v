(** Proofs about positions, bounds, segments, tags, orders, area ids. *)
From Verif Require Import Base.Prelude Model.Osm Spec.OsmSpec.

Lemma pos_eqb_spec p q : pos_eqb p q = true <-> p = q.
Proof.
  unfold pos_eqb; destruct p as [a b], q as [c d]; cbn [px py]. split.
  - intros H; f_equal; lia.
  - intros H; injection H as -> ->; lia.
Qed.

Lemma pos_ltb_spec p q :
  pos_ltb p q = true <-> (px p < px q \/ (px p = px q /\ py p < py q)).
Proof. unfold pos_ltb; destruct (px p =? px q) eqn:E; lia. Qed.

Lemma pos_defined_spec p : pos_defined p = true <-> located p.
Proof. unfold pos_defined, located, invalid_coord, int32_max; lia. Qed.

Lemma pos_lt_strict_total : strict_total (fun p q => pos_ltb p q = true).
Proof.
  split.
  - intros a; rewrite pos_ltb_spec; lia.
  - intros a b c; rewrite !pos_ltb_spec; lia.
  - intros [a1 a2] [b1 b2]; rewrite !pos_ltb_spec; cbn [px py].
    destruct (Z.lt_trichotomy a1 b1) as [|[->|]]; [left; lia| |right; right; lia].
    destruct (Z.lt_trichotomy a2 b2) as [|[->|]]; [left; lia|right; left; reflexivity|right; right; lia].
Qed.

(** Bounds *)
Lemma extend_bbox ps b p :
  ps <> [] -> pos_defined (bottom_left b) = true -> is_bbox ps b ->
  is_bbox (ps ++ [p]) (bounds_extend b p).
Proof.
  intros Hne Hd [Hin Hl Hr Hb Ht]. unfold bounds_extend; rewrite Hd.
  assert (Hs : forall P : position -> Prop, (exists q, In q ps /\ P q) -> exists q, In q (ps ++ [p]) /\ P q).
  { intros P (q & Hq & HP); exists q; split; [apply in_or_app; auto|auto]. }
  assert (Hp : In p (ps ++ [p])) by (apply in_or_app; right; left; auto).
  split; cbn [bottom_left top_right px py].
  - intros q Hq; apply in_app_or in Hq. unfold inside; cbn [bottom_left top_right px py].
    assert (C : inside b q \/ q = p) by (destruct Hq as [Hq|[Hq|[]]]; auto).
    assert (C0 : exists q0, In q0 ps /\ inside b q0)
      by (destruct ps as [|q0 r]; [congruence|exists q0; split; [left; auto|apply Hin; left; auto]]).
    destruct C0 as (q0 & _ & C0). unfold inside in C, C0.
    destruct (px p <? px (bottom_left b)) eqn:E1; destruct (px p >? px (top_right b)) eqn:E2;
    destruct (py p <? py (bottom_left b)) eqn:E3; destruct (py p >? py (top_right b)) eqn:E4;
    destruct C as [C| ->]; lia.
  - destruct (px p <? px (bottom_left b)); [exists p; auto|exact (Hs _ Hl)].
  - destruct (px p >? px (top_right b)); [exists p; auto|exact (Hs _ Hr)].
  - destruct (py p <? py (bottom_left b)); [exists p; auto|exact (Hs _ Hb)].
  - destruct (py p >? py (top_right b)); [exists p; auto|exact (Hs _ Ht)].
Qed.

Lemma bbox_defined ps b :
  (forall p, In p ps -> located p) -> is_bbox ps b -> pos_defined (bottom_left b) = true.
Proof.
  intros Hd [_ (p & Hp & E1) _ (q & Hq & E2) _].
  apply pos_defined_spec; split; [rewrite <- E1; apply (Hd p Hp)|rewrite <- E2; apply (Hd q Hq)].
Qed.

Lemma bounds_fold_bbox ps :
  ps <> [] -> (forall p, In p ps -> located p) ->
  is_bbox ps (fold_left bounds_extend ps bounds_new).
Proof.
  induction ps as [|p ps IH] using rev_ind; [congruence|]. intros _ Hd.
  rewrite fold_left_app; cbn [fold_left].
  destruct ps as [|q r].
  - cbn. split; unfold inside; cbn [bottom_left top_right].
    + intros q [->|[]]; lia.
    + exists p; cbn; auto. + exists p; cbn; auto. + exists p; cbn; auto. + exists p; cbn; auto.
  - assert (Hb : is_bbox (q :: r) (fold_left bounds_extend (q :: r) bounds_new)).
    { apply IH; [congruence|]. intros x Hx; apply Hd; apply in_or_app; auto. }
    apply extend_bbox; [congruence| |exact Hb].
    apply (bbox_defined (q :: r)); [|exact Hb]. intros x Hx; apply Hd; apply in_or_app; auto.
Qed.

Lemma is_bbox_unique ps qs b c :
  (forall p, In p ps <-> In p qs) -> is_bbox ps b -> is_bbox qs c -> b = c.
Proof.
  intros E [I1 L1 R1 B1 T1] [I2 L2 R2 B2 T2].
  destruct L1 as (l1 & Hl1 & El1), R1 as (r1 & Hr1 & Er1), B1 as (b1 & Hb1 & Eb1), T1 as (t1 & Ht1 & Et1).
  destruct L2 as (l2 & Hl2 & El2), R2 as (r2 & Hr2 & Er2), B2 as (b2 & Hb2 & Eb2), T2 as (t2 & Ht2 & Et2).
  pose proof (I2 _ (proj1 (E _) Hl1)) as A1. pose proof (I2 _ (proj1 (E _) Hr1)) as A2.
  pose proof (I2 _ (proj1 (E _) Hb1)) as A3. pose proof (I2 _ (proj1 (E _) Ht1)) as A4.
  pose proof (I1 _ (proj2 (E _) Hl2)) as C1. pose proof (I1 _ (proj2 (E _) Hr2)) as C2.
  pose proof (I1 _ (proj2 (E _) Hb2)) as C3. pose proof (I1 _ (proj2 (E _) Ht2)) as C4.
  unfold inside in *. destruct b as [[bx by_] [bx2 by2]], c as [[cx cy] [cx2 cy2]]; cbn in *.
  f_equal; f_equal; lia.
Qed.

Lemma bounds_fold_perm ps qs :
  (forall p, In p ps -> located p) -> Permutation ps qs ->
  fold_left bounds_extend ps bounds_new = fold_left bounds_extend qs bounds_new.
Proof.
  intros Hd Hp. destruct ps as [|p r].
  - apply Permutation_nil in Hp; subst; reflexivity.
  - assert (Hq : qs <> []) by (intros ->; apply Permutation_sym, Permutation_nil in Hp; congruence).
    apply (is_bbox_unique (p :: r) qs).
    + intros x; split; apply Permutation_in; [exact Hp|apply Permutation_sym; exact Hp].
    + apply bounds_fold_bbox; [congruence|exact Hd].
    + apply bounds_fold_bbox; [exact Hq|]. intros x Hx; apply Hd.
      apply (Permutation_in _ (Permutation_sym Hp) Hx).
Qed.

Lemma bounds_fold_undefined ps :
  (forall p, In p ps -> ~ located p) -> bounds_defined (fold_left bounds_extend ps bounds_new) = false.
Proof.
  intros Hd.
  assert (G : forall b, bounds_defined b = false -> bounds_defined (fold_left bounds_extend ps b) = false).
  { induction ps as [|p r IH]; intros b Hb; [exact Hb|]. cbn [fold_left]. apply IH.
    - intros q Hq; apply Hd; right; exact Hq.
    - unfold bounds_extend. unfold bounds_defined in Hb; rewrite Hb. unfold bounds_defined; cbn.
      destruct (pos_defined p) eqn:E; [|reflexivity]. apply pos_defined_spec in E.
      exfalso; apply (Hd p); [left; reflexivity|exact E]. }
  apply G; reflexivity.
Qed.

(** Segments *)
Lemma undirected_comm a b : undirected a b = undirected b a.
Proof.
  unfold undirected. destruct (pos_ltb b a) eqn:E1; destruct (pos_ltb a b) eqn:E2; try reflexivity.
  - apply pos_ltb_spec in E1; apply pos_ltb_spec in E2; lia.
  - destruct (st_total _ pos_lt_strict_total a b) as [H|[->|H]]; [congruence|reflexivity|congruence].
Qed.

Lemma undirected_first_le a b : pos_ltb (seg_second (undirected a b)) (seg_first (undirected a b)) = false.
Proof.
  unfold undirected. destruct (pos_ltb b a) eqn:E; cbn [seg_first seg_second]; [|exact E].
  destruct (pos_ltb a b) eqn:E2; [|reflexivity].
  apply pos_ltb_spec in E; apply pos_ltb_spec in E2; lia.
Qed.

Lemma undirected_inj a b c d :
  undirected a b = undirected c d -> (a = c /\ b = d) \/ (a = d /\ b = c).
Proof.
  unfold undirected; destruct (pos_ltb b a), (pos_ltb d c); intros H; injection H as H1 H2; auto.
Qed.

Lemma seg_eqb_spec a b : seg_eqb a b = true <-> a = b.
Proof.
  unfold seg_eqb; destruct a, b; cbn; rewrite andb_true_iff, !pos_eqb_spec. split.
  - intros [-> ->]; reflexivity.
  - intros H; injection H as -> ->; auto.
Qed.

Lemma useg_strict_total : strict_total (fun a b => useg_ltb a b = true).
Proof.
  assert (S : forall a b, useg_ltb a b = true <->
     (pos_ltb (seg_first a) (seg_first b) = true \/
      (seg_first a = seg_first b /\ pos_ltb (seg_second a) (seg_second b) = true))).
  { intros a b; unfold useg_ltb. destruct (pos_eqb (seg_first a) (seg_first b)) eqn:E.
    - apply pos_eqb_spec in E. rewrite E. split; [auto|]. intros [H|[_ H]]; [|exact H].
      exfalso; exact (st_irrefl _ pos_lt_strict_total _ H).
    - assert (N : seg_first a <> seg_first b) by (intros C; apply pos_eqb_spec in C; congruence).
      split; [auto|]. intros [H|[H _]]; [exact H|contradiction]. }
  pose proof pos_lt_strict_total as T. destruct T as [Ti Tt To].
  split.
  - intros a; rewrite S. intros [H|[_ H]]; eapply Ti; exact H.
  - intros a b c; rewrite !S. intros [H1|[H1 H1']] [H2|[H2 H2']].
    + left; eapply Tt; eauto.
    + left; rewrite <- H2; exact H1.
    + left; rewrite H1; exact H2.
    + right; split; [congruence|eapply Tt; eauto].
  - intros [a1 a2] [b1 b2]; rewrite !S; cbn [seg_first seg_second].
    destruct (To a1 b1) as [H|[->|H]]; [left; auto| |right; right; auto].
    destruct (To a2 b2) as [H|[->|H]]; [left; auto|right; left; auto|right; right; auto].
Qed.

(** Object order *)
Lemma obj_lt_total a b c d : a <> int64_min -> c <> int64_min -> exists r, obj_lt a b c d = Ok r.
Proof.
  intros Ha Hc; unfold obj_lt, std_abs. destruct (a =? c); [eauto|].
  destruct (Z.eqb_spec a int64_min) as [|_]; [contradiction|].
  destruct (Z.eqb_spec c int64_min) as [|_]; [contradiction|]. cbn; eauto.
Qed.

Lemma obj_lt_true_spec a b : fst a <> int64_min -> fst b <> int64_min ->
  obj_lt_true a b <->
  ((fst a = fst b /\ snd a < snd b) \/ (fst a <> fst b /\ Z.abs (fst a) < Z.abs (fst b))).
Proof.
  intros Ha Hb; unfold obj_lt_true, obj_lt, std_abs. destruct (Z.eqb_spec (fst a) (fst b)) as [E|E].
  - split.
    + intros H; injection H as H; left; lia.
    + intros [H|H]; [|lia]. f_equal; lia.
  - destruct (Z.eqb_spec (fst a) int64_min) as [|_]; [contradiction|].
    destruct (Z.eqb_spec (fst b) int64_min) as [|_]; [contradiction|]. cbn. split.
    + intros H; injection H as H; right; lia.
    + intros [H|H]; [lia|]. f_equal; lia.
Qed.

Lemma obj_lt_strict_weak ids :
  no_opposite ids -> ~ In int64_min ids ->
  strict_weak_on (fun a => In (fst a) ids) obj_lt_true.
Proof.
  intros N M.
  assert (NM : forall a : idver, In (fst a) ids -> fst a <> int64_min) by (intros a Ha C; rewrite C in Ha; auto).
  assert (L : forall a b : idver, In (fst a) ids -> In (fst b) ids ->
    (obj_lt_true a b <-> Z.abs (fst a) < Z.abs (fst b) \/ (Z.abs (fst a) = Z.abs (fst b) /\ snd a < snd b))).
  { intros a b Ha Hb; rewrite obj_lt_true_spec by auto. pose proof (N _ _ Ha Hb) as E.
    destruct (Z.eq_dec (fst a) (fst b)) as [E1|E1]; [rewrite E1; lia|].
    assert (Z.abs (fst a) <> Z.abs (fst b)) by (intros C; apply E1, E, C). lia. }
  split.
  - intros a Ha; rewrite L by auto; lia.
  - intros a b c Ha Hb Hc; rewrite !L by auto.
    generalize (Z.abs (fst a)) (Z.abs (fst b)) (Z.abs (fst c)); intros; lia.
  - intros a b c Ha Hb Hc; rewrite !L by auto.
    generalize (Z.abs (fst a)) (Z.abs (fst b)) (Z.abs (fst c)); intros; lia.
Qed.

(** Area ids *)
Definition area_rel_range (id : Z) : Prop := - 4611686018427387904 < id < 4611686018427387904.
Definition area_way_range (id : Z) : Prop := - 4611686018427387904 <= id < 4611686018427387904.

Lemma area_rel_id_ok id : area_rel_range id -> area_id_of_relation id = Ok (2 * id + Z.sgn id).
Proof.
  intros H; unfold area_rel_range in H.
  unfold area_id_of_relation, in_i64b, int64_min, int64_max, sgn.
  destruct ((-9223372036854775808 <=? id * 2) && (id * 2 <=? 9223372036854775807)) eqn:E; [|lia].
  destruct (0 <? id) eqn:E1, (id <? 0) eqn:E2; cbn [Z.b2z]; try lia.
  - destruct ((-9223372036854775808 <=? id * 2 + (1 - 0)) && (id * 2 + (1 - 0) <=? 9223372036854775807)) eqn:E3; [|lia].
    f_equal. rewrite Z.sgn_pos; lia.
  - destruct ((-9223372036854775808 <=? id * 2 + (0 - 1)) && (id * 2 + (0 - 1) <=? 9223372036854775807)) eqn:E3; [|lia].
    f_equal. rewrite Z.sgn_neg; lia.
  - destruct ((-9223372036854775808 <=? id * 2 + (0 - 0)) && (id * 2 + (0 - 0) <=? 9223372036854775807)) eqn:E3; [|lia].
    f_equal. assert (id = 0) by lia; subst; reflexivity.
Qed.

Lemma area_way_id_ok id : area_way_range id -> area_id_of_way id = Ok (2 * id).
Proof.
  intros H; unfold area_way_range in H. unfold area_id_of_way, in_i64b, int64_min, int64_max.
  destruct ((-9223372036854775808 <=? id * 2) && (id * 2 <=? 9223372036854775807)) eqn:E; [|lia].
  f_equal; lia.
Qed.

Lemma quot_rem_way id : Z.quot (2 * id) 2 = id /\ Z.rem (2 * id) 2 = 0.
Proof.
  replace (2 * id) with (id * 2) by lia. split; [apply Z.quot_mul; lia|apply Z.rem_mul; lia].
Qed.
Lemma quot_rem_rel id : id <> 0 ->
  Z.quot (2 * id + Z.sgn id) 2 = id /\ Z.rem (2 * id + Z.sgn id) 2 <> 0.
Proof.
  intros H. destruct (Z.lt_trichotomy id 0) as [L|[E|G]]; [|lia|].
  - rewrite Z.sgn_neg by lia. replace (2 * id + -1) with (- (2 * (- id) + 1)) by lia.
    rewrite Z.quot_opp_l, Z.rem_opp_l by lia.
    rewrite Z.quot_div_nonneg, Z.rem_mod_nonneg by lia. lia.
  - rewrite Z.sgn_pos by lia.
    rewrite Z.quot_div_nonneg, Z.rem_mod_nonneg by lia. lia.
Qed.

Lemma area_of_way_back id a : area_id_of_way id = Ok a -> area_from_way a = true /\ area_orig_id a = id.
Proof.
  unfold area_id_of_way. destruct (in_i64b (id * 2)); [|discriminate]. intros H; injection H as <-.
  unfold area_from_way, area_orig_id. replace (id * 2) with (2 * id) by lia.
  destruct (quot_rem_way id) as [-> ->]; split; reflexivity.
Qed.
Lemma area_of_rel_back id a : id <> 0 -> area_id_of_relation id = Ok a ->
  area_from_way a = false /\ area_orig_id a = id.
Proof.
  intros Hid. unfold area_id_of_relation. destruct (in_i64b (id * 2)); [|discriminate].
  destruct (in_i64b (id * 2 + sgn id)); [|discriminate]. intros H; injection H as <-.
  assert (Es : sgn id = Z.sgn id).
  { unfold sgn. destruct (Z.lt_trichotomy id 0) as [L|[E|G]]; [|lia|].
    - rewrite Z.sgn_neg by lia. destruct (0 <? id) eqn:?, (id <? 0) eqn:?; cbn; lia.
    - rewrite Z.sgn_pos by lia. destruct (0 <? id) eqn:?, (id <? 0) eqn:?; cbn; lia. }
  rewrite Es. unfold area_from_way, area_orig_id. replace (id * 2) with (2 * id) by lia.
  destruct (quot_rem_rel id Hid) as [-> ?]; split; [lia|reflexivity].
Qed.

(** Tags *)
Lemma tags_fold_adds ops ts : no_clear ops -> fold_left tl_step ops ts = ts ++ tags_of_adds ops.
Proof.
  revert ts; induction ops as [|o r IH]; intros ts N; cbn [fold_left tags_of_adds].
  - rewrite app_nil_r; reflexivity.
  - assert (N' : no_clear r) by (intros C; apply N; right; exact C).
    destruct o as [k v|]; [|exfalso; apply N; left; reflexivity].
    rewrite IH by exact N'. cbn [tl_step]. unfold tl_add. rewrite <- app_assoc. reflexivity.
Qed.

Lemma tags_since_clear ops1 ops2 :
  no_clear ops2 ->
  fold_left tl_step (ops1 ++ TLClear :: ops2) [] = tags_of_adds ops2.
Proof.
  intros N. rewrite fold_left_app; cbn [fold_left tl_step]. unfold tl_clear.
  rewrite tags_fold_adds by exact N. reflexivity.
Qed.

Lemma get_value_some ts k v :
  get_value_by_key ts k = Some v <->
  exists t, is_first (fun t => tkey t = k) ts t /\ tvalue t = v.
Proof.
  induction ts as [|t r IH]; cbn [get_value_by_key].
  - split; [discriminate|]. intros (t & (l1 & l2 & E & _) & _). destruct l1; discriminate.
  - destruct (String.eqb_spec (tkey t) k) as [E|E].
    + split.
      * intros H; injection H as H. exists t; split; [|exact H]. exists [], r. split; [reflexivity|].
        split; [exact E|]. intros y [].
      * intros (t' & (l1 & l2 & E' & Hk & Hn) & Hv). destruct l1 as [|x l1].
        -- injection E' as <- _. congruence.
        -- injection E' as <- _. exfalso; apply (Hn t); [left; reflexivity|exact E].
    + rewrite IH. split.
      * intros (t' & (l1 & l2 & E' & Hk & Hn) & Hv). exists t'; split; [|exact Hv].
        exists (t :: l1), l2. split; [rewrite E'; reflexivity|]. split; [exact Hk|].
        intros y [<-|Hy]; [exact E|apply Hn; exact Hy].
      * intros (t' & (l1 & l2 & E' & Hk & Hn) & Hv). destruct l1 as [|x l1].
        -- injection E' as <- _. contradiction.
        -- injection E' as <- E'. exists t'; split; [|exact Hv]. exists l1, l2.
           split; [exact E'|]. split; [exact Hk|]. intros y Hy; apply Hn; right; exact Hy.
Qed.

Lemma get_value_none ts k : get_value_by_key ts k = None <-> forall t, In t ts -> tkey t <> k.
Proof.
  induction ts as [|t r IH]; cbn [get_value_by_key].
  - split; [intros _ t []|reflexivity].
  - destruct (String.eqb_spec (tkey t) k) as [E|E].
    + split; [discriminate|]. intros H; exfalso; apply (H t); [left; reflexivity|exact E].
    + rewrite IH. split.
      * intros H t' [<-|Ht']; [exact E|apply H; exact Ht'].
      * intros H t' Ht'; apply H; right; exact Ht'.
Qed.

(** way node lists and members *)
Lemma is_closed_ends a mid b : is_closed (a :: mid ++ [b]) = Ok (wn_ref a =? wn_ref b).
Proof. unfold is_closed. rewrite last_last. reflexivity. Qed.

Lemma wnl_has_position_uniform ns : ns <> [] ->
  (forall n, In n ns -> located (wn_pos n)) \/ (forall n, In n ns -> ~ located (wn_pos n)) ->
  (wnl_has_position ns = true <-> forall n, In n ns -> located (wn_pos n)).
Proof.
  intros Hne U. destruct ns as [|a r]; [congruence|]. unfold wnl_has_position, wn_has_position.
  assert (Hl : In (last r a) (a :: r)).
  { destruct r as [|x r'] using rev_ind; [left; reflexivity|]. rewrite last_last. right; apply in_or_app; right; left; reflexivity. }
  rewrite pos_defined_spec. destruct U as [U|U].
  - split; [intros _; exact U|intros _; apply U, Hl].
  - split; [intros H; exfalso; exact (U _ Hl H)|intros H; apply H, Hl].
Qed.

Lemma add_member_short ms m : short_role m ->
  add_member ms (m_type m) (m_ref m) (m_role m) = (ms ++ [m], None).
Proof.
  unfold short_role, add_member, slen, max_length_role. intros H.
  destruct (Z.of_nat (String.length (m_role m)) >? 1021) eqn:E; [lia|]. destruct m; reflexivity.
Qed.
Lemma add_member_long ms t r role : Z.of_nat (String.length role) > 1021 ->
  snd (add_member ms t r role) = Some ELength.
Proof.
  unfold add_member, slen, max_length_role. intros H.
  destruct (Z.of_nat (String.length role) >? 1021) eqn:E; [reflexivity|lia].
Qed.

(** Whatever is added, with or without exceptions: no role above the limit gets into the list, and
    the members with shorter roles are there, in order. *)
Lemma add_members_limit ms new : Forall short_role ms ->
  Forall short_role (fst (add_members ms new)) /\
  Forall2 (fun m n => m_type n = m_type m /\ m_ref n = m_ref m /\
    m_role n = if Z.of_nat (String.length (m_role m)) >? 1021 then ""%string else m_role m) (ms ++ new) (fst (add_members ms new)).
Proof.
  unfold add_members. intros H.
  assert (G : forall new ms' es done, Forall short_role ms' -> Forall2 (fun m n => m_type n = m_type m /\ m_ref n = m_ref m /\
      m_role n = if Z.of_nat (String.length (m_role m)) >? 1021 then ""%string else m_role m) done ms' ->
    let s := fold_left (fun s m => let (l, e) := add_member (fst s) (m_type m) (m_ref m) (m_role m) in (l, snd s ++ [e])) new (ms', es) in
    Forall short_role (fst s) /\ Forall2 (fun m n => m_type n = m_type m /\ m_ref n = m_ref m /\
      m_role n = if Z.of_nat (String.length (m_role m)) >? 1021 then ""%string else m_role m) (done ++ new) (fst s)).
  { clear. induction new as [|m r IH]; intros ms es done S F; cbn [fold_left].
    - cbn [fst]. rewrite app_nil_r. auto.
    - cbn [fst snd]. assert (E : exists n e, add_member ms (m_type m) (m_ref m) (m_role m) = (ms ++ [n], e) /\ short_role n /\
          m_type n = m_type m /\ m_ref n = m_ref m /\ m_role n = if Z.of_nat (String.length (m_role m)) >? 1021 then ""%string else m_role m).
      { unfold add_member, slen, max_length_role. destruct (Z.of_nat (String.length (m_role m)) >? 1021) eqn:E; do 2 eexists; (split; [reflexivity|]);
          (split; [unfold short_role; cbn [m_role]; cbn [String.length]; lia|auto]). }
      destruct E as (n & e & E & Sn & N1 & N2 & N3). rewrite E. cbn [fst snd].
      replace (done ++ m :: r) with ((done ++ [m]) ++ r) by (rewrite <- app_assoc; reflexivity).
      apply IH; [apply Forall_app; auto|apply Forall2_app; auto]. }
  apply G; [exact H|]. clear G. induction H as [|m ms M _ IH]; constructor; [|exact IH].
  split; [reflexivity|split; [reflexivity|]]. unfold short_role in M. destruct (Z.of_nat (String.length (m_role m)) >? 1021) eqn:E; [lia|reflexivity].
Qed.
Lemma add_members_short ms new : Forall short_role new ->
  fst (add_members ms new) = ms ++ new /\ Forall (fun e => e = None) (snd (add_members ms new)).
Proof.
  unfold add_members.
  assert (G : forall ms es, Forall (fun e => e = None) es -> Forall short_role new ->
    let s := fold_left (fun s m => let (l, e) := add_member (fst s) (m_type m) (m_ref m) (m_role m) in (l, snd s ++ [e])) new (ms, es) in
    fst s = ms ++ new /\ Forall (fun e : option exn => e = None) (snd s)).
  { induction new as [|m r IH]; intros ms0 es Hes Hs; cbn [fold_left].
    - cbn. rewrite app_nil_r; auto.
    - inversion Hs as [|? ? Hm Hr]; subst. cbn [fst snd]. rewrite add_member_short by exact Hm.
      destruct (IH (ms0 ++ [m]) (es ++ [None])) as [E1 E2]; [|exact Hr|].
      + apply Forall_app; auto.
      + rewrite E1. rewrite <- app_assoc. split; [reflexivity|exact E2]. }
  intros Hs. apply G; auto.
Qed.

Lemma get_member_spec ms i : 0 <= i < 4294967296 -> Z.of_nat (List.length ms) < 4294967296 ->
  get_member ms i = nth_error ms (Z.to_nat i).
Proof.
  intros Hi Hl. unfold get_member, to_u32. rewrite !Z.mod_small by lia.
  destruct (i <? Z.of_nat (List.length ms)) eqn:E; [reflexivity|].
  symmetry; apply nth_error_None. lia.
Qed.

Lemma is_closed_single a : is_closed [a] = Ok true.
Proof. unfold is_closed; cbn. rewrite Z.eqb_refl. reflexivity. Qed.

Lemma area_ids_unique i j a :
  (i <> 0 -> area_id_of_way j = Ok a -> area_id_of_relation i = Ok a -> False) /\
  (area_id_of_way i = Ok a -> area_id_of_way j = Ok a -> i = j) /\
  (i <> 0 -> j <> 0 -> area_id_of_relation i = Ok a -> area_id_of_relation j = Ok a -> i = j).
Proof.
  split; [|split].
  - intros Hi H1 H2. apply area_of_way_back in H1. apply area_of_rel_back in H2; [|exact Hi].
    destruct H1, H2; congruence.
  - intros H1 H2. apply area_of_way_back in H1; apply area_of_way_back in H2. destruct H1, H2; congruence.
  - intros Hi Hj H1 H2. apply area_of_rel_back in H1; [|exact Hi]; apply area_of_rel_back in H2; [|exact Hj].
    destruct H1, H2; congruence.
Qed.

Fixpoint repeat_char (n : nat) : string :=
  match n with O => ""%string | S k => String "a" (repeat_char k) end.
Lemma add_member_unchanged_refuted : exists ms t r role,
  snd (add_member ms t r role) = Some ELength /\ fst (add_member ms t r role) <> ms.
Proof. exists [], "w"%char, 1, (repeat_char 1022). split; [vm_compute; reflexivity|vm_compute; discriminate]. Qed.

Lemma bounds_undefined_refuted : exists ps p,
  (forall q, In q ps -> located q) /\ ps <> [] /\ ~ located p /\
  bounds_extend (fold_left bounds_extend ps bounds_new) p <> fold_left bounds_extend ps bounds_new.
Proof.
  exists [mkPos 1 2], undef_pos. split; [|split; [|split]].
  - intros q [<-|[]]; split; cbn; discriminate.
  - discriminate.
  - intros [C _]; apply C; reflexivity.
  - vm_compute; discriminate.
Qed.
Lemma has_position_refuted : exists ns, wnl_has_position ns = true /\ exists n, In n ns /\ ~ located (wn_pos n).
Proof.
  exists [mkWN 1 undef_pos; mkWN 2 (mkPos 0 0)]. split; [reflexivity|].
  exists (mkWN 1 undef_pos). split; [left; reflexivity|]. intros [C _]; apply C; reflexivity.
Qed.
