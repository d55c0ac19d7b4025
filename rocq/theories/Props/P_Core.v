(** C03-C08, C55, C56: positions, bounds, segments, orders, area ids, tags, members. *)
From Verif Require Import Base.Prelude Model.Osm Spec.OsmSpec Proofs.OsmProofs.

(* ---- C03 ---- *)
Theorem C03_defined_iff : forall p, pos_defined p = true <-> (px p <> 2147483647 /\ py p <> 2147483647).
Proof. exact pos_defined_spec. Qed.
Print Assumptions C03_defined_iff.
Theorem C03_default_undefined : pos_defined undef_pos = false.
Proof. exact eq_refl. Qed.
Print Assumptions C03_default_undefined.
Theorem C03_equality : forall p q, pos_eqb p q = true <-> p = q.
Proof. exact pos_eqb_spec. Qed.
Print Assumptions C03_equality.
Theorem C03_order_is_lexicographic : forall p q,
  pos_ltb p q = true <-> (px p < px q \/ (px p = px q /\ py p < py q)).
Proof. exact pos_ltb_spec. Qed.
Print Assumptions C03_order_is_lexicographic.
Theorem C03_order_strict_total : strict_total (fun p q => pos_ltb p q = true).
Proof. exact pos_lt_strict_total. Qed.
Print Assumptions C03_order_strict_total.
Example C03_ex : pos_defined (mkPos 10 20) = true /\ pos_ltb (mkPos 10 20) (mkPos 10 21) = true
  /\ pos_ltb (mkPos 11 0) (mkPos 10 21) = false.
Proof. vm_compute; auto. Qed.

(* ---- C04 ---- *)
Theorem C04_bounds_tight : forall ps,
  ps <> [] -> (forall p, In p ps -> located p) -> is_bbox ps (fold_left bounds_extend ps bounds_new).
Proof. exact bounds_fold_bbox. Qed.
Print Assumptions C04_bounds_tight.
Theorem C04_bounds_order_independent : forall ps qs,
  (forall p, In p ps -> located p) -> Permutation ps qs ->
  fold_left bounds_extend ps bounds_new = fold_left bounds_extend qs bounds_new.
Proof. exact bounds_fold_perm. Qed.
Print Assumptions C04_bounds_order_independent.
Theorem C04_bounds_stays_undefined : forall ps,
  (forall p, In p ps -> ~ located p) -> bounds_defined (fold_left bounds_extend ps bounds_new) = false.
Proof. exact bounds_fold_undefined. Qed.
Print Assumptions C04_bounds_stays_undefined.
(** Finding: an undefined position extends an already defined box (to +214.7 degrees). *)
Theorem C04_undefined_position_ignored_refuted : exists ps p,
  (forall q, In q ps -> located q) /\ ps <> [] /\ ~ located p /\
  bounds_extend (fold_left bounds_extend ps bounds_new) p <> fold_left bounds_extend ps bounds_new.
Proof. exact bounds_undefined_refuted. Qed.
Print Assumptions C04_undefined_position_ignored_refuted.
Example C04_ex : forall p, In p [mkPos 5 (-7); mkPos (-3) 9] -> located p.
Proof. intros p [<-|[<-|[]]]; split; cbn; discriminate. Qed.

(* ---- C05 ---- *)
Theorem C05_symmetric : forall a b, undirected a b = undirected b a.
Proof. exact undirected_comm. Qed.
Print Assumptions C05_symmetric.
Theorem C05_same_endpoints : forall a b c d,
  undirected a b = undirected c d -> (a = c /\ b = d) \/ (a = d /\ b = c).
Proof. exact undirected_inj. Qed.
Print Assumptions C05_same_endpoints.
Theorem C05_first_not_greater : forall a b,
  pos_ltb (seg_second (undirected a b)) (seg_first (undirected a b)) = false.
Proof. exact undirected_first_le. Qed.
Print Assumptions C05_first_not_greater.
Theorem C05_equality : forall a b, seg_eqb a b = true <-> a = b.
Proof. exact seg_eqb_spec. Qed.
Print Assumptions C05_equality.
Theorem C05_order_strict_total : strict_total (fun a b => useg_ltb a b = true).
Proof. exact useg_strict_total. Qed.
Print Assumptions C05_order_strict_total.
Example C05_ex : undirected (mkPos 3 4) (mkPos 3 2) = mkSeg (mkPos 3 2) (mkPos 3 4).
Proof. reflexivity. Qed.

(* ---- C06 ---- *)
Theorem C06_order_strict_weak : forall ids,
  no_opposite ids -> ~ In int64_min ids -> strict_weak_on (fun a => In (fst a) ids) obj_lt_true.
Proof. exact obj_lt_strict_weak. Qed.
Print Assumptions C06_order_strict_weak.
Theorem C06_order_meaning : forall a b, fst a <> int64_min -> fst b <> int64_min ->
  obj_lt_true a b <->
  ((fst a = fst b /\ snd a < snd b) \/ (fst a <> fst b /\ Z.abs (fst a) < Z.abs (fst b))).
Proof. exact obj_lt_true_spec. Qed.
Print Assumptions C06_order_meaning.
Theorem C06_no_ub : forall a b c d, a <> int64_min -> c <> int64_min -> exists r, obj_lt a b c d = Ok r.
Proof. exact obj_lt_total. Qed.
Print Assumptions C06_no_ub.
(** Finding: with ids 5 and -5 and two versions of 5 the order is not a strict weak order:
    (5,v1)~(-5,v1) and (-5,v1)~(5,v2) are incomparable, yet (5,v1) < (5,v2). *)
Theorem C06_strict_weak_refuted : exists a b c : Z * Z,
  ~ obj_lt_true a b /\ ~ obj_lt_true b a /\ ~ obj_lt_true b c /\ ~ obj_lt_true c b /\ obj_lt_true a c.
Proof. exists (5, 1), (-5, 1), (5, 2). repeat split; try (intros C; vm_compute in C; discriminate C). Qed.
Print Assumptions C06_strict_weak_refuted.
(** Finding: comparing objects with the smallest id is undefined behaviour. *)
Theorem C06_total_refuted : exists a b c d, in_i64 a /\ in_i64 c /\ obj_lt a b c d = UB.
Proof. exists int64_min, 1, 0, 1. vm_compute; intuition discriminate. Qed.
Print Assumptions C06_total_refuted.
Example C06_ex : no_opposite [5; -7; 8] /\ ~ In int64_min [5; -7; 8] /\ obj_lt_true (5, 3) (-7, 1).
Proof.
  split; [|split; [|reflexivity]].
  - intros x y Hx Hy; cbn in *; intuition subst; lia.
  - cbn; unfold int64_min; lia.
Qed.

(* ---- C07 ---- *)
Theorem C07_way_area : forall id a, area_id_of_way id = Ok a -> area_from_way a = true /\ area_orig_id a = id.
Proof. exact area_of_way_back. Qed.
Print Assumptions C07_way_area.
Theorem C07_relation_area : forall id a, id <> 0 -> area_id_of_relation id = Ok a ->
  area_from_way a = false /\ area_orig_id a = id.
Proof. exact area_of_rel_back. Qed.
Print Assumptions C07_relation_area.
Theorem C07_way_area_exists : forall id, - 2^62 <= id < 2^62 -> area_id_of_way id = Ok (2 * id).
Proof. exact area_way_id_ok. Qed.
Print Assumptions C07_way_area_exists.
Theorem C07_relation_area_exists : forall id, - 2^62 < id < 2^62 ->
  area_id_of_relation id = Ok (2 * id + Z.sgn id).
Proof. exact area_rel_id_ok. Qed.
Print Assumptions C07_relation_area_exists.
(** Different sources give different ids: a consequence of the two inverse theorems. *)
Theorem C07_unique : forall i j a,
  (i <> 0 -> area_id_of_way j = Ok a -> area_id_of_relation i = Ok a -> False) /\
  (area_id_of_way i = Ok a -> area_id_of_way j = Ok a -> i = j) /\
  (i <> 0 -> j <> 0 -> area_id_of_relation i = Ok a -> area_id_of_relation j = Ok a -> i = j).
Proof. exact area_ids_unique. Qed.
Print Assumptions C07_unique.
(** Finding: the area of relation 0 has the id of the area of way 0 and claims to come from a way. *)
Theorem C07_relation_zero_refuted : exists i a,
  area_id_of_relation i = Ok a /\ area_id_of_way i = Ok a /\ area_from_way a = true.
Proof. exists 0, 0. exact (conj eq_refl (conj eq_refl eq_refl)). Qed.
Print Assumptions C07_relation_zero_refuted.
Example C07_ex : area_id_of_relation (-17) = Ok (-35) /\ area_from_way (-35) = false /\ area_orig_id (-35) = -17.
Proof. vm_compute; auto. Qed.

(* ---- C08 ---- *)
Theorem C08_tags_since_clear : forall ops1 ops2, ~ In TLClear ops2 ->
  fold_left tl_step (ops1 ++ TLClear :: ops2) [] = tags_of_adds ops2.
Proof. exact tags_since_clear. Qed.
Print Assumptions C08_tags_since_clear.
Theorem C08_tags_no_clear : forall ops ts, ~ In TLClear ops ->
  fold_left tl_step ops ts = ts ++ tags_of_adds ops.
Proof. exact tags_fold_adds. Qed.
Print Assumptions C08_tags_no_clear.
Theorem C08_lookup_first : forall ts k v,
  get_value_by_key ts k = Some v <-> exists t, is_first (fun t => tkey t = k) ts t /\ tvalue t = v.
Proof. exact get_value_some. Qed.
Print Assumptions C08_lookup_first.
Theorem C08_lookup_missing : forall ts k, get_value_by_key ts k = None <-> forall t, In t ts -> tkey t <> k.
Proof. exact get_value_none. Qed.
Print Assumptions C08_lookup_missing.
Example C08_ex : get_value_by_key (fold_left tl_step
   [TLAdd "a" "0"; TLClear; TLAdd "highway" "primary"; TLAdd "name" "x"; TLAdd "name" "y"] []) "name" = Some "x"%string.
Proof. reflexivity. Qed.

(* ---- C55 ---- *)
Theorem C55_closed_ends : forall a mid b, is_closed (a :: mid ++ [b]) = Ok (wn_ref a =? wn_ref b).
Proof. exact is_closed_ends. Qed.
Print Assumptions C55_closed_ends.
Theorem C55_closed_single : forall a, is_closed [a] = Ok true.
Proof. exact is_closed_single. Qed.
Print Assumptions C55_closed_single.
(** Finding: asking an empty way is undefined behaviour. *)
Theorem C55_empty_is_ub : is_closed [] = UB.
Proof. exact eq_refl. Qed.
Print Assumptions C55_empty_is_ub.
Theorem C55_has_position_uniform : forall ns, ns <> [] ->
  (forall n, In n ns -> located (wn_pos n)) \/ (forall n, In n ns -> ~ located (wn_pos n)) ->
  (wnl_has_position ns = true <-> forall n, In n ns -> located (wn_pos n)).
Proof. exact wnl_has_position_uniform. Qed.
Print Assumptions C55_has_position_uniform.
(** Finding: has_position() only looks at the last node. *)
Theorem C55_has_position_refuted : exists ns, wnl_has_position ns = true /\ exists n, In n ns /\ ~ located (wn_pos n).
Proof. exact has_position_refuted. Qed.
Print Assumptions C55_has_position_refuted.
Example C55_ex : is_closed [mkWN 1 undef_pos; mkWN 2 undef_pos; mkWN 1 undef_pos] = Ok true.
Proof. reflexivity. Qed.

(* ---- C56 ---- *)
Theorem C56_members_stored_in_order : forall ms new,
  Forall (fun m => Z.of_nat (String.length (m_role m)) <= 1021) new ->
  fst (add_members ms new) = ms ++ new /\ Forall (fun e => e = None) (snd (add_members ms new)).
Proof. exact add_members_short. Qed.
Print Assumptions C56_members_stored_in_order.
Theorem C56_long_role_rejected : forall ms t r role, Z.of_nat (String.length role) > 1021 ->
  snd (add_member ms t r role) = Some ELength.
Proof. exact add_member_long. Qed.
Print Assumptions C56_long_role_rejected.
(** Whatever is added: no role above the limit gets into the list; every member is there with its type and
    reference, and with its role if that is not too long. *)
Theorem C56_role_limit : forall ms new, Forall (fun m => Z.of_nat (String.length (m_role m)) <= 1021) ms ->
  Forall (fun m => Z.of_nat (String.length (m_role m)) <= 1021) (fst (add_members ms new)) /\
  Forall2 (fun m n => m_type n = m_type m /\ m_ref n = m_ref m /\
    m_role n = if Z.of_nat (String.length (m_role m)) >? 1021 then ""%string else m_role m) (ms ++ new) (fst (add_members ms new)).
Proof. exact add_members_limit. Qed.
Print Assumptions C56_role_limit.
(** Finding: a rejected role leaves a half-initialised member behind. *)
Theorem C56_unchanged_on_failure_refuted : exists ms t r role,
  snd (add_member ms t r role) = Some ELength /\ fst (add_member ms t r role) <> ms.
Proof. exact add_member_unchanged_refuted. Qed.
Print Assumptions C56_unchanged_on_failure_refuted.
Theorem C56_get_member : forall ms i, 0 <= i < 2^32 -> Z.of_nat (List.length ms) < 2^32 ->
  get_member ms i = nth_error ms (Z.to_nat i).
Proof. exact get_member_spec. Qed.
Print Assumptions C56_get_member.
Example C56_ex : get_member (fst (add_members [] [mkMember "w" 7 "outer"; mkMember "n" 8 ""])) 1 = Some (mkMember "n" 8 "").
Proof. reflexivity. Qed.
