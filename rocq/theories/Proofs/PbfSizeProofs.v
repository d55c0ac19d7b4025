(** Sizes of the messages in a PBF file. *)
From Verif Require Import Base.Prelude Base.SMap Model.Osm Model.Float Model.Utils Model.Attr Model.OsmFile Model.Handler Model.Pbf
  Spec.UtilsSpec Spec.TagsSpec Spec.HandlerSpec Spec.PbfSpec Spec.Protobuf Spec.PbfSizeSpec Proofs.UtilsProofs Proofs.PbfFrameProofs
  Proofs.PbfStringProofs Proofs.PbfDecodeProofs Proofs.PbfWriteProofs Proofs.PbfBlockProofs Proofs.PbfProofs Proofs.PbfSuccessProofs
  Proofs.PbfMainProofs Proofs.ProtobufProofs Proofs.PbfTheorems.
Local Open Scope Z_scope.

(* ---- sums ---- *)
Lemma total_app {A} (f : A -> Z) a b : total f (a ++ b) = total f a + total f b.
Proof. induction a as [|x a IH]; cbn [app total fold_right]; [reflexivity|]. fold (total f (a ++ b)). fold (total f a). lia. Qed.
Lemma total_cons {A} (f : A -> Z) x l : total f (x :: l) = f x + total f l.
Proof. reflexivity. Qed.
Lemma total_le {A} (f g : A -> Z) l : (forall x, In x l -> f x <= g x) -> total f l <= total g l.
Proof.
  induction l as [|x l IH]; intros H; [apply Z.le_refl|]. rewrite !total_cons. pose proof (H x (or_introl eq_refl)).
  pose proof (IH (fun y Y => H y (or_intror Y))). lia.
Qed.
Lemma total_nonneg {A} (f : A -> Z) l : (forall x, 0 <= f x) -> 0 <= total f l.
Proof. intros H. induction l as [|x l IH]; [apply Z.le_refl|]. rewrite total_cons. pose proof (H x). lia. Qed.
Lemma total_map {A B} (f : B -> Z) (g : A -> B) l : total f (map g l) = total (fun x => f (g x)) l.
Proof. induction l as [|x l IH]; [reflexivity|]. cbn [map]. rewrite !total_cons, IH. reflexivity. Qed.
Lemma total_flat {A B} (f : B -> Z) (g : A -> list B) l : total f (flat_map g l) = total (fun x => total f (g x)) l.
Proof. induction l as [|x l IH]; [reflexivity|]. cbn [flat_map]. rewrite total_app, total_cons, IH. reflexivity. Qed.
Lemma total_const {A} k (l : list A) : total (fun _ => k) l = k * Z.of_nat (List.length l).
Proof. induction l as [|x l IH]; [cbn; lia|]. rewrite total_cons, IH. cbn [List.length]. lia. Qed.
Lemma total_plus {A} (f g : A -> Z) l : total (fun x => f x + g x) l = total f l + total g l.
Proof. induction l as [|x l IH]; [reflexivity|]. rewrite !total_cons, IH. lia. Qed.
Lemma total_perm {A} (f : A -> Z) a b : Permutation a b -> total f a = total f b.
Proof. induction 1; rewrite ?total_cons; lia. Qed.
Lemma total_incl {A} (f : A -> Z) a : (forall x, 0 <= f x) -> NoDup a -> forall b, incl a b -> total f a <= total f b.
Proof.
  intros H. induction 1 as [|x a N _ IH]; intros b I; [apply total_nonneg, H|].
  destruct (in_split x b (I x (or_introl eq_refl))) as (b1 & b2 & ->).
  rewrite total_app, !total_cons. specialize (IH (b1 ++ b2)). rewrite total_app in IH.
  assert (incl a (b1 ++ b2)).
  { intros y Y. pose proof (I y (or_intror Y)) as Z. rewrite in_app_iff in *. cbn in Z. destruct Z as [|[<-|]]; tauto. }
  specialize (IH H0). lia.
Qed.

(* ---- bytes ---- *)
Lemma blen_app a b : blen (a ++ b) = blen a + blen b.
Proof. unfold blen. rewrite app_length. lia. Qed.
Lemma blen_flat {A} (f : A -> bytes) l : blen (flat_map f l) = total (fun x => blen (f x)) l.
Proof. induction l as [|x l IH]; [reflexivity|]. cbn [flat_map]. rewrite blen_app, total_cons, IH. reflexivity. Qed.
Lemma slen_nonneg s : 0 <= slen s.
Proof. unfold slen. lia. Qed.
Lemma blen_str s : blen (Protobuf.str s) = slen s.
Proof. unfold blen, slen, Protobuf.str. rewrite list_ascii_len || idtac. induction s as [|c s IH]; cbn; [reflexivity|]. lia. Qed.
Lemma vput_one n : n < 128 -> blen (vput n) = 1.
Proof. intros H. unfold vput. cbn [put_varint]. destruct (Z.ltb_spec n 128); [reflexivity|lia]. Qed.
Lemma vput_two n : n < 16384 -> blen (vput n) <= 2.
Proof.
  intros H. unfold vput. cbn [put_varint]. destruct (n <? 128); [cbn; lia|]. destruct (Z.ltb_spec (n / 128) 128) as [|L]; [cbn; lia|].
  exfalso. apply (Z.div_le_lower_bound n 128 128) in H || idtac. assert (n / 128 < 128) by (apply Z.div_lt_upper_bound; lia). lia.
Qed.
Definition fsize (f : field) : Z := match snd f with FVar _ => 11 | FLen b => 11 + blen b end.
Lemma put_field_size f : fst f <= 15 -> blen (put_field f) <= fsize f.
Proof.
  intros H. unfold put_field, fsize. destruct (snd f) as [n|b]; rewrite !blen_app.
  - rewrite vput_one by lia. pose proof (vput_len n). lia.
  - rewrite vput_one by lia. pose proof (vput_len (blen b)). lia.
Qed.
Lemma put_field_size2 f : fst f <= 2047 -> blen (put_field f) <= 1 + fsize f.
Proof.
  intros H. unfold put_field, fsize. destruct (snd f) as [n|b]; rewrite !blen_app.
  - pose proof (vput_two (fst f * 8) ltac:(lia)). pose proof (vput_len n). lia.
  - pose proof (vput_two (fst f * 8 + 2) ltac:(lia)). pose proof (vput_len (blen b)). lia.
Qed.
Lemma put_field_more f b : snd f = FLen b -> blen b <= blen (put_field f).
Proof.
  intros E. unfold put_field. rewrite E, !blen_app. pose proof (blen_nonneg (vput (fst f * 8 + 2))). pose proof (blen_nonneg (vput (blen b))). lia.
Qed.
Definition low (l : list field) : Prop := forall f, In f l -> fst f <= 15.
Lemma put_msg_size l : low l -> blen (put_msg l) <= total fsize l.
Proof. intros H. unfold put_msg. rewrite blen_flat. apply total_le. intros f F. apply put_field_size, H, F. Qed.
Lemma low_app a b : low a -> low b -> low (a ++ b).
Proof. intros A B f F. apply in_app_iff in F as [F|F]; auto. Qed.
Lemma low_packed k e l : k <= 15 -> low (packed k e l).
Proof. intros H f F. destruct l; [destruct F|]. destruct F as [<-|[]]. exact H. Qed.
Lemma low_opt {A} k (p : A -> fval) x : k <= 15 -> low (opt k p x).
Proof. intros H f F. destruct x; [|destruct F]. destruct F as [<-|[]]. exact H. Qed.
Lemma low_cons k v l : k <= 15 -> low l -> low ((k, v) :: l).
Proof. intros H L f [<-|F]; [exact H|auto]. Qed.
Lemma low_nil : low [].
Proof. intros f []. Qed.
Lemma low_map {A} k (p : A -> fval) l : k <= 15 -> low (map (fun x => (k, p x)) l).
Proof. intros H f F. apply in_map_iff in F as (x & <- & _). exact H. Qed.
Ltac lows := repeat first [apply low_app|apply low_packed|apply low_opt|apply low_map|apply low_cons|apply low_nil]; try lia.
Lemma packed_size k e l : total fsize (packed k e l) <= 11 + 10 * Z.of_nat (List.length l).
Proof.
  destruct l as [|x l]; [change (total fsize (packed k e [])) with 0; cbn [List.length]; lia|]. unfold packed. rewrite total_cons. unfold fsize at 1. cbn [snd]. rewrite blen_flat.
  rewrite <- (total_const 10 (x :: l)). change (total fsize []) with 0.
  pose proof (total_le (fun n => blen (vput (e n))) (fun _ => 10) (x :: l) (fun n _ => vput_len (e n))). lia.
Qed.
Lemma fsize_var k n : fsize (k, FVar n) = 11.
Proof. reflexivity. Qed.
Lemma fsize_len k b : fsize (k, FLen b) = 11 + blen b.
Proof. reflexivity. Qed.
Ltac zn := repeat match goal with |- context [@total ?A ?f (@nil ?B)] => change (@total A f (@nil B)) with 0 end.
Lemma opt_var {A} k (p : A -> Z) x : total fsize (opt k (fun a => FVar (p a)) x) <= 11.
Proof. destruct x; cbn [opt]; rewrite ?total_cons; zn; rewrite ?fsize_var; lia. Qed.
Lemma opt_len {A} k (p : A -> bytes) x n : 0 <= n -> (forall a, x = Some a -> blen (p a) <= n) -> total fsize (opt k (fun a => FLen (p a)) x) <= 11 + n.
Proof. intros H0 H. destruct x as [a|]; cbn [opt]; rewrite ?total_cons; zn; rewrite ?fsize_len; [pose proof (H a eq_refl); lia|lia]. Qed.
Lemma total_rel {A B} (R : A -> B -> Prop) (f : B -> Z) (g : A -> Z) xs ps :
  Forall2 R xs ps -> (forall x p, R x p -> f p <= g x) -> total f ps <= total g xs.
Proof. intros F H. induction F as [|x p xs ps Hx _ IH]; [apply Z.le_refl|]. rewrite !total_cons. pose proof (H _ _ Hx). lia. Qed.
Lemma rel_len {A B} (R : A -> B -> Prop) a b : Forall2 R a b -> List.length b = List.length a.
Proof. induction 1; cbn; congruence. Qed.
Lemma tags_rel_len S ts ks vs : tags_rel S ts ks vs -> List.length ks = List.length ts /\ List.length vs = List.length ts.
Proof. intros [A B]. apply rel_len in A. apply rel_len in B. rewrite map_length in *. auto. Qed.

Section Size.
Variables (c : pcfg) (ec et : Z -> Z) (S : Z -> string -> Prop).
Definition tn (a : attrs) : Z := Z.of_nat (List.length (o_tags a)).
Lemma info_size i : blen (put_info i) <= 66.
Proof.
  unfold put_info. eapply Z.le_trans; [apply put_msg_size; lows|]. rewrite total_app.
  pose proof (opt_var 6 bit (i_visible i)) as H. rewrite !total_cons, !fsize_var; zn. lia.
Qed.
Lemma common_size enc a p : common_rel c et S a p -> total fsize (common_fields enc p) <= 110 + 20 * tn a.
Proof.
  intros (_ & HT & _). apply tags_rel_len in HT as [H1 H2]. unfold common_fields. rewrite !total_app.
  pose proof (packed_size 2 u64 (c_keys p)). pose proof (packed_size 3 u64 (c_vals p)).
  pose proof (opt_len 4 put_info (c_info p) 66 ltac:(lia) (fun i _ => info_size i)).
  rewrite total_cons, fsize_var; zn. unfold tn. lia.
Qed.
Lemma low_common enc p : low (common_fields enc p).
Proof. unfold common_fields. lows. Qed.
Lemma node_size n p : node_rel c ec et S n p -> blen (put_node p) <= 132 + 20 * tn (n_attrs n).
Proof.
  intros (H & _). unfold put_node. eapply Z.le_trans; [apply put_msg_size; apply low_app; [apply low_common|lows]|]. rewrite total_app.
  pose proof (common_size zigzag _ _ H). rewrite !total_cons, !fsize_var; zn. lia.
Qed.
Lemma way_size n p : way_rel c et S n p -> blen (put_way p) <= 121 + 20 * tn (w_attrs n) + 10 * Z.of_nat (List.length (w_nodes n)).
Proof.
  intros (H & E & _). unfold put_way. eapply Z.le_trans; [apply put_msg_size; apply low_app; [apply low_common|lows]|]. rewrite total_app.
  pose proof (common_size u64 _ _ H). pose proof (packed_size 8 zigzag (pw_refs p)) as P. rewrite E in P at 2. rewrite deltas_length, map_length in P. lia.
Qed.
Lemma rel_size n p : rel_rel c et S n p -> blen (put_rel p) <= 143 + 20 * tn (r_attrs n) + 30 * Z.of_nat (List.length (r_members n)).
Proof.
  intros (H & R & E & _ & Y). unfold put_rel. eapply Z.le_trans; [apply put_msg_size; apply low_app; [apply low_common|lows]|]. rewrite !total_app.
  pose proof (common_size u64 _ _ H). apply rel_len in R. apply rel_len in Y. rewrite map_length in R.
  pose proof (packed_size 8 u64 (pr_roles p)). pose proof (packed_size 10 u64 (pr_types p)).
  pose proof (packed_size 9 zigzag (pr_memids p)) as P. rewrite E in P at 2. rewrite deltas_length, map_length in P. lia.
Qed.
Lemma interleave_len ks : forall vs, List.length vs = List.length ks -> List.length (interleave ks vs) = (2 * List.length ks)%nat.
Proof. induction ks as [|k ks IH]; intros [|v vs] E; try discriminate; [reflexivity|]. cbn in *. rewrite IH by lia. lia. Qed.
Lemma kv_size ns kvs : Forall2 (fun n kv => kv_rel S (n_attrs n) kv) ns kvs ->
  Z.of_nat (List.length (List.concat kvs)) <= total (fun n => 1 + 2 * tn (n_attrs n)) ns.
Proof.
  induction 1 as [|n kv ns kvs (ks & vs & H & ->) _ IH]; [cbn; lia|]. cbn [List.concat]. rewrite total_cons, !app_length.
  apply tags_rel_len in H as [H1 H2]. rewrite interleave_len by lia. cbn [List.length]. unfold tn at 1. lia.
Qed.
Variable tbl : list string.
Notation U := (users_rel tbl).
Lemma dinfo_size ns i : dinfo_rel c et U ns i -> blen (put_dinfo i) <= 66 + 60 * Z.of_nat (List.length ns).
Proof.
  intros (I1 & I2 & _ & I3 & _ & I4 & (js & IJ & I5) & I6). unfold put_dinfo. eapply Z.le_trans; [apply put_msg_size; lows|]. rewrite !total_app.
  pose proof (packed_size 1 u64 (di_version i)) as P1. pose proof (packed_size 2 zigzag (di_timestamp i)) as P2.
  pose proof (packed_size 3 zigzag (di_changeset i)) as P3. pose proof (packed_size 4 zigzag (di_uid i)) as P4.
  pose proof (packed_size 5 zigzag (di_user_sid i)) as P5. pose proof (packed_size 6 (fun n => n) (map bit (di_visible i))) as P6.
  apply rel_len in IJ. rewrite map_length in IJ.
  assert (L1 : List.length (di_version i) = List.length ns) by (rewrite I1; apply map_length).
  assert (L2 : List.length (di_timestamp i) = List.length ns) by (rewrite I2, deltas_length; apply map_length).
  assert (L3 : List.length (di_changeset i) = List.length ns) by (rewrite I3, deltas_length; apply map_length).
  assert (L4 : List.length (di_uid i) = List.length ns) by (rewrite I4, map_length, deltas_length; apply map_length).
  assert (L5 : List.length (di_user_sid i) = List.length ns) by (rewrite I5, deltas_length; symmetry; exact IJ).
  assert (L6 : (List.length (map bit (di_visible i)) <= List.length ns)%nat) by (rewrite map_length, I6; destruct (cf_visible c); [rewrite map_length|cbn]; lia).
  lia.
Qed.
Lemma dense_size ns d : dense_rel c ec et S U ns d -> blen (put_dense d) <= 121 + total (fun n => 100 + 20 * tn (n_attrs n)) ns.
Proof.
  intros (D1 & _ & D2 & _ & D3 & _ & (kvs & D4 & K) & D5). unfold put_dense. eapply Z.le_trans; [apply put_msg_size; lows|]. rewrite !total_app.
  pose proof (packed_size 1 zigzag (dn_id d)) as P1. pose proof (packed_size 8 zigzag (dn_lat d)) as P2.
  pose proof (packed_size 9 zigzag (dn_lon d)) as P3. pose proof (packed_size 10 u64 (dn_kv d)) as P4.
  assert (L1 : List.length (dn_id d) = List.length ns) by (rewrite D1, deltas_length; apply map_length).
  assert (L2 : List.length (dn_lat d) = List.length ns) by (rewrite D2, deltas_length; apply map_length).
  assert (L3 : List.length (dn_lon d) = List.length ns) by (rewrite D3, deltas_length; apply map_length).
  apply kv_size in K. rewrite <- D4 in K.
  assert (L5 : total fsize (opt 5 (fun i => FLen (put_dinfo i)) (dn_info d)) <= 77 + 60 * Z.of_nat (List.length ns)).
  { eapply Z.le_trans; [apply (opt_len 5 put_dinfo (dn_info d) (66 + 60 * Z.of_nat (List.length ns)))|lia]; [lia|]. intros i EI. rewrite EI in D5.
    destruct (cf_meta c); [|discriminate]. destruct D5 as [D5 _]. unfold the_dinfo in D5. rewrite EI in D5.
    apply dinfo_size in D5. rewrite map_length in D5. exact D5. }
  assert (E : total (fun n => 100 + 20 * tn (n_attrs n)) ns = 90 * Z.of_nat (List.length ns) + 10 * total (fun n => 1 + 2 * tn (n_attrs n)) ns).
  { clear. induction ns as [|n ns IH]; [reflexivity|]. rewrite !total_cons. cbn [List.length]. lia. }
  lia.
Qed.
(** without the texts *)
Definition est (o : object) : Z :=
  159 + 20 * tn (obj_attrs o) +
  match o with ONode _ => 0 | OWay w => 10 * Z.of_nat (List.length (w_nodes w)) | ORel r => 30 * Z.of_nat (List.length (r_members r)) end.
Definition kind_est (l : list object) (t : otype) : Z :=
  match t with
  | NODE => total est (map ONode (nodes_of l)) | WAY => total est (map OWay (ways_of l)) | RELATION => total est (map ORel (rels_of l))
  | _ => 0
  end.
Lemma msgs_size {A} k (p : A -> bytes) l : total fsize (map (fun x => (k, FLen (p x))) l) = total (fun x => 11 + blen (p x)) l.
Proof. rewrite total_map. reflexivity. Qed.
Lemma group_size l t g : group_rel c ec et S U l t g -> blen (put_group g) <= 132 + kind_est l t.
Proof.
  intros H. unfold put_group. eapply Z.le_trans; [apply put_msg_size; lows|]. rewrite !total_app, !msgs_size.
  destruct t; cbn [group_rel] in H; try contradiction; cbn [kind_est].
  - destruct H as (-> & -> & H). change (total (fun x => 11 + blen (put_way x)) []) with 0. change (total (fun x => 11 + blen (put_rel x)) []) with 0.
    destruct (cf_dense c).
    + destruct H as (-> & H & _). change (total (fun x => 11 + blen (put_node x)) []) with 0. apply dense_size in H. rewrite total_map.
      assert (L : total (fun n => 100 + 20 * tn (n_attrs n)) (nodes_of l) <= total (fun n => est (ONode n)) (nodes_of l)).
      { apply total_le. intros n _. unfold est. cbn [obj_attrs]. lia. }
      assert (0 <= total (fun n => est (ONode n)) (nodes_of l)) by (apply total_nonneg; intros n; unfold est, tn; lia).
      pose proof (opt_len 2 put_dense (g_dense g) (121 + total (fun n => est (ONode n)) (nodes_of l)) ltac:(lia)) as HD.
      assert (HD' : forall d, g_dense g = Some d -> blen (put_dense d) <= 121 + total (fun n => est (ONode n)) (nodes_of l)).
      { intros d EG. unfold the_dense in H. rewrite EG in H. lia. }
      specialize (HD HD'). lia.
    + destruct H as (E & H). rewrite E. change (total fsize (opt 2 (fun d => FLen (put_dense d)) None)) with 0. rewrite total_map.
      pose proof (total_rel _ (fun x => 11 + blen (put_node x)) (fun n => est (ONode n)) _ _ H) as L.
      assert (total (fun x => 11 + blen (put_node x)) (g_nodes g) <= total (fun n => est (ONode n)) (nodes_of l)); [|lia].
      apply L. intros n p R. apply node_size in R. unfold est. cbn [obj_attrs]. lia.
  - destruct H as (-> & E & -> & H). rewrite E. change (total fsize (opt 2 (fun d => FLen (put_dense d)) None)) with 0. change (total (fun x => 11 + blen (put_node x)) []) with 0. change (total (fun x => 11 + blen (put_rel x)) []) with 0.
    rewrite total_map. pose proof (total_rel _ (fun x => 11 + blen (put_way x)) (fun n => est (OWay n)) _ _ H) as L.
    assert (total (fun x => 11 + blen (put_way x)) (g_ways g) <= total (fun n => est (OWay n)) (ways_of l)); [|lia].
    apply L. intros n p R. apply way_size in R. unfold est. cbn [obj_attrs]. lia.
  - destruct H as (-> & E & -> & H). rewrite E. change (total fsize (opt 2 (fun d => FLen (put_dense d)) None)) with 0. change (total (fun x => 11 + blen (put_node x)) []) with 0. change (total (fun x => 11 + blen (put_way x)) []) with 0.
    rewrite total_map. pose proof (total_rel _ (fun x => 11 + blen (put_rel x)) (fun n => est (ORel n)) _ _ H) as L.
    assert (total (fun x => 11 + blen (put_rel x)) (g_rels g) <= total (fun n => est (ORel n)) (rels_of l)); [|lia].
    apply L. intros n p R. apply rel_size in R. unfold est. cbn [obj_attrs]. lia.
Qed.
Lemma kinds_est l : total est l = kind_est l NODE + kind_est l WAY + kind_est l RELATION.
Proof.
  cbn [kind_est]. induction l as [|[n|w|r] l IH]; [reflexivity| | |]; rewrite total_cons; cbn [nodes_of ways_of rels_of flat_map app map]; rewrite total_cons;
    fold (nodes_of l) (ways_of l) (rels_of l); lia.
Qed.
Lemma kind_est_nonneg l t : 0 <= kind_est l t.
Proof. destruct t; cbn [kind_est]; try lia; apply total_nonneg; intros o; unfold est, tn; destruct o; lia. Qed.
Lemma kinds_three l : incl (kinds [] l) [NODE; WAY; RELATION].
Proof. intros t H. apply kinds_in in H as [H _]. apply in_map_iff in H as (o & <- & _). destruct o; cbn; tauto. Qed.
Lemma groups_size l gs : Forall2 (group_rel c ec et S U l) (kinds [] l) gs ->
  total (fun g => 11 + blen (put_group g)) gs <= 429 + total est l.
Proof.
  intros H. eapply Z.le_trans.
  - apply (total_rel _ _ (fun t => 143 + kind_est l t) _ _ H). intros t g R. apply group_size in R. lia.
  - eapply Z.le_trans.
    + apply (total_incl (fun t => 143 + kind_est l t) _ ltac:(intros t; pose proof (kind_est_nonneg l t); lia) (kinds_nodup l []) [NODE; WAY; RELATION] (kinds_three l)).
    + rewrite kinds_est. rewrite !total_cons. zn. lia.
Qed.
End Size.

(* ---- blocks ---- *)
Lemma recorded_size c o : total (fun s => 11 + slen s) (recorded c o) + est o <= bulk o.
Proof.
  assert (A : total (fun s => 11 + slen s) (attr_texts c (obj_attrs o)) <=
              total (fun t => 22 + slen (tkey t) + slen (tvalue t)) (o_tags (obj_attrs o)) + 11 + slen (o_user (obj_attrs o))).
  { unfold attr_texts, tag_texts. rewrite total_app, total_flat.
    assert (B : total (fun x => total (fun s => 11 + slen s) [tkey x; tvalue x]) (o_tags (obj_attrs o)) <=
                total (fun t => 22 + slen (tkey t) + slen (tvalue t)) (o_tags (obj_attrs o))).
    { apply total_le. intros t _. rewrite !total_cons. zn. lia. }
    pose proof (slen_nonneg (o_user (obj_attrs o))). destruct (cf_meta c); rewrite ?total_cons; zn; lia. }
  assert (T : total (fun t => 42 + slen (tkey t) + slen (tvalue t)) (o_tags (obj_attrs o)) =
              total (fun t => 22 + slen (tkey t) + slen (tvalue t)) (o_tags (obj_attrs o)) + 20 * tn (obj_attrs o)).
  { unfold tn. rewrite <- (total_const 20). rewrite <- total_plus. apply Z.le_antisymm; apply total_le; intros t _; lia. }
  unfold recorded, est, bulk. rewrite total_app. destruct o as [n|w|r]; cbn [obj_attrs] in *; zn.
  - lia.
  - rewrite (total_const 10). lia.
  - rewrite total_map. assert (M : total (fun m => 41 + slen (m_role m)) (r_members r) =
      total (fun m => 11 + slen (m_role m)) (r_members r) + 30 * Z.of_nat (List.length (r_members r))).
    { rewrite <- (total_const 30). rewrite <- total_plus. apply Z.le_antisymm; apply total_le; intros t _; lia. }
    lia.
Qed.
Lemma bulk_nonneg o : 170 <= bulk o.
Proof.
  unfold bulk. pose proof (slen_nonneg (o_user (obj_attrs o))).
  assert (0 <= total (fun t => 42 + slen (tkey t) + slen (tvalue t)) (o_tags (obj_attrs o))).
  { apply total_nonneg. intros t. pose proof (slen_nonneg (tkey t)). pose proof (slen_nonneg (tvalue t)). lia. }
  destruct o as [n|w|r].
  - lia.
  - pose proof (total_nonneg (fun _ => 10) (w_nodes w) ltac:(intros; lia)). lia.
  - pose proof (total_nonneg (fun m => 41 + slen (m_role m)) (r_members r) ltac:(intros m; pose proof (slen_nonneg (m_role m)); lia)). lia.
Qed.
Lemma block_size c ec et l b : block_shape c ec et l b -> blen (put_pb b) <= 520 + total bulk l.
Proof.
  intros (ts & gs & EB & ND & IN & G). cbv zeta in *. subst b. unfold put_pb, blk, put_msg.
  cbn [pb_strings pb_groups pb_granularity pb_date_granularity pb_lat_offset pb_lon_offset].
  rewrite !flat_map_app, !blen_app. cbn [flat_map]. rewrite !blen_app.
  assert (S1 : blen (put_field (1, FLen (put_strings (""%string :: ts)))) <= 22 + total (fun s => 11 + slen s) ts).
  { eapply Z.le_trans; [apply put_field_size; cbn [fst]; lia|]. rewrite fsize_len. unfold put_strings.
    assert (H : blen (put_msg (map (fun s => (1, FLen (Protobuf.str s))) (""%string :: ts))) <= 11 + total (fun s => 11 + slen s) ts); [|lia].
    eapply Z.le_trans; [apply put_msg_size; lows|]. rewrite msgs_size, total_cons.
    assert (total (fun x => 11 + blen (Protobuf.str x)) ts <= total (fun s => 11 + slen s) ts) by (apply total_le; intros s _; rewrite blen_str; lia).
    change (blen (Protobuf.str "")) with 0. lia. }
  assert (S2 : blen (flat_map put_field (map (fun g => (2, FLen (put_group g))) gs)) <= 429 + total est l).
  { eapply Z.le_trans; [|apply (groups_size c ec et _ (""%string :: ts) l gs G)]. change (flat_map put_field ?x) with (put_msg x).
    eapply Z.le_trans; [apply put_msg_size; lows|]. rewrite msgs_size. apply Z.le_refl. }
  assert (S3 : total (fun s => 11 + slen s) ts <= total (fun s => 11 + slen s) (flat_map (recorded c) l)).
  { apply total_incl; [intros s; pose proof (slen_nonneg s); lia|exact ND|]. intros s Hs. apply IN, Hs. }
  rewrite total_flat in S3.
  assert (S4 : total (fun x => total (fun s => 11 + slen s) (recorded c x)) l + total est l <= total bulk l).
  { rewrite <- total_plus. apply total_le. intros o _. apply recorded_size. }
  pose proof (put_field_size2 (17, FVar (u64 (to_i32 (cf_gran c)))) ltac:(cbn [fst]; lia)) as F1.
  pose proof (put_field_size2 (18, FVar (u64 (to_i32 (cf_dgran c)))) ltac:(cbn [fst]; lia)) as F2.
  pose proof (put_field_size2 (19, FVar (u64 0)) ltac:(cbn [fst]; lia)) as F3.
  pose proof (put_field_size2 (20, FVar (u64 0)) ltac:(cbn [fst]; lia)) as F4.
  rewrite !fsize_var in *. change (blen []) with 0.
  eapply Z.le_trans; [repeat (apply Z.add_le_mono); first [exact S1|exact S2|exact F1|exact F2|exact F3|exact F4|apply Z.le_refl]|]. lia.
Qed.
Lemma block_more c ec et l b : block_shape c ec et l b -> total slen (nodup string_dec (flat_map (recorded c) l)) <= blen (put_pb b).
Proof.
  intros (ts & gs & EB & ND & IN & G). cbv zeta in *. subst b. unfold put_pb, blk, put_msg.
  cbn [pb_strings pb_groups]. cbn [app flat_map]. rewrite blen_app.
  match goal with |- _ <= _ + blen ?x => pose proof (blen_nonneg x) end.
  assert (total slen (nodup string_dec (flat_map (recorded c) l)) <= total slen ts).
  { apply total_incl; [apply slen_nonneg|apply NoDup_nodup|]. intros s Hs. apply nodup_In in Hs. apply IN, Hs. }
  pose proof (put_field_more (1, FLen (put_strings (""%string :: ts))) _ eq_refl).
  assert (total slen ts <= blen (put_strings (""%string :: ts))); [|lia].
  unfold put_strings, put_msg. rewrite blen_flat, total_map, total_cons.
  match goal with |- _ <= blen ?x + _ => pose proof (blen_nonneg x) end.
  assert (total slen ts <= total (fun s => blen (put_field (1, FLen (Protobuf.str s)))) ts); [|lia].
  apply total_le. intros s _. rewrite <- blen_str. apply (put_field_more (1, FLen (Protobuf.str s))). reflexivity.
Qed.
Lemma blob_size1 d n : blen (put_blob (mkBlob (Some d) n None None)) <= 22 + blen d.
Proof.
  unfold put_blob. eapply Z.le_trans; [apply put_msg_size; lows|]. rewrite !total_app. cbn [b_raw b_zlib b_lzma b_raw_size opt].
  rewrite !total_cons, fsize_var, fsize_len. zn. lia.
Qed.
Lemma blob_size2 z n : blen (put_blob (mkBlob None n (Some z) None)) <= 22 + blen z.
Proof.
  unfold put_blob. eapply Z.le_trans; [apply put_msg_size; lows|]. rewrite !total_app. cbn [b_raw b_zlib b_lzma b_raw_size opt].
  rewrite !total_cons, fsize_var, fsize_len. zn. lia.
Qed.
Lemma blob_more d n : blen d <= blen (put_blob (mkBlob (Some d) n None None)).
Proof.
  unfold put_blob, put_msg. cbn [b_raw b_zlib b_lzma b_raw_size opt app flat_map]. rewrite blen_app.
  match goal with |- _ <= _ + blen ?x => pose proof (blen_nonneg x) end.
  pose proof (put_field_more (1, FLen d) _ eq_refl). lia.
Qed.
Lemma small_size K compress d : wire_format K -> blen d <= 33510000 -> small K compress d.
Proof.
  intros W H. pose proof (blen_nonneg d). pose proof (wf_zlib K W d) as Z.
  assert (Z' : blen d / 1000 <= 33510) by (apply Z.div_le_upper_bound; lia).
  unfold small, limit. split; [lia|]. rewrite !(wf_blob K W). destruct compress.
  - split; [lia|]. pose proof (blob_size2 (zdeflate K d) (blen d)). lia.
  - pose proof (blob_size1 d (blen d)). lia.
Qed.
Lemma deflate_small K d : wire_format K -> blen d <= 33510000 -> ~ limit < blen (zdeflate K d).
Proof.
  intros W H. pose proof (wf_zlib K W d) as Z. assert (Z' : blen d / 1000 <= 33510) by (apply Z.div_le_upper_bound; lia). unfold limit. lia.
Qed.
Lemma header_size_ok c m hb : header_of c m = Ok hb -> slen (cf_generator c) <= 1000000 -> blen (put_hb hb) <= 1001000.
Proof.
  intros E G. unfold header_of in E. cbv zeta in E. match type of E with obind ?x _ = _ => destruct x as [bb|e| |] end; cbn [obind] in E; try discriminate.
  injection E as <-. unfold put_hb. cbn [hb_bbox hb_features hb_program opt]. unfold put_msg. rewrite !flat_map_app, !blen_app.
  assert (S1 : blen (flat_map put_field (opt 1 (fun b => FLen (put_bbox b)) bb)) <= 55).
  { change (flat_map put_field ?x) with (put_msg x). eapply Z.le_trans; [apply put_msg_size; lows|].
    apply (opt_len 1 put_bbox bb 44 ltac:(lia)). intros b _. unfold put_bbox. eapply Z.le_trans; [apply put_msg_size; lows|].
    rewrite !total_cons, !fsize_var. zn. lia. }
  assert (S3 : blen (put_field (16, FLen (Protobuf.str (cf_generator c)))) <= 12 + slen (cf_generator c)).
  { eapply Z.le_trans; [apply put_field_size2; cbn [fst]; lia|]. rewrite fsize_len, blen_str. lia. }
  cbn [flat_map]. rewrite blen_app. change (blen []) with 0.
  match goal with |- _ + (blen ?x + _) <= _ => assert (S2 : blen x <= 100) by (destruct (cf_dense c), (ft_eqb (cf_type c) FtHistory); vm_compute; discriminate) end.
  lia.
Qed.

(* ---- whole files ---- *)
Lemma concat_part {A} (ch : list A) chunks : In ch chunks -> exists a b, List.concat chunks = a ++ ch ++ b.
Proof.
  induction chunks as [|x chunks IH]; intros []; cbn [List.concat].
  - subst. exists [], (List.concat chunks). reflexivity.
  - destruct (IH H) as (a & b & ->). exists (x ++ a), b. rewrite <- app_assoc. reflexivity.
Qed.
Lemma Forall2_in_r {A B} (R : A -> B -> Prop) xs ys y : Forall2 R xs ys -> In y ys -> exists x, In x xs /\ R x y.
Proof. induction 1; intros []; [subst; eexists; split; [left; reflexivity|assumption]|]. destruct (IHForall2 H1) as (x0 & I & R0). exists x0. split; [right; exact I|exact R0]. Qed.

Section Whole.
Variables (K : codec) (c : pcfg).
Hypothesis HK : codec_ok K.
Hypothesis HG : default_gran c.
Hypothesis HW : wire_format K.
Notation idZ := (fun x : Z => x).
Lemma read_back m os sched : bounds_defined (mt_bounds m) = false \/ bounds_ok (mt_bounds m) -> slen (cf_generator c) <= 1000000 ->
  Forall object_ok os -> Forall near_ids os -> Forall known_members os -> few_texts os -> moderate os -> writes_complete sched ->
  exists file, write_pbf K c m os sched = Ok file /\ forall s, reads_ok s ->
    let r := read_pbf K (cf_type c) (mkIfd file s) in
    pr_end r = Ok tt /\ (forall t, only t (pr_groups r) = ofilter t (map (kept c) os)) /\
    (type_sorted os -> flat_map snd (pr_groups r) = map (kept c) os) /\
    mt_generator (pr_meta r) = cf_generator c /\
    (bounds_defined (mt_bounds m) = false -> mt_bounds (pr_meta r) = bounds_new) /\
    (bounds_ok (mt_bounds m) -> pos_almost (bottom_left (mt_bounds m)) (bottom_left (mt_bounds (pr_meta r))) /\
                                pos_almost (top_right (mt_bounds m)) (top_right (mt_bounds (pr_meta r)))).
Proof.
  intros HB GL HO HN HM FT MO WS. destruct (header_of_ok c m HB) as (hb & EH).
  pose proof (header_size_ok c m hb EH GL) as HS.
  destruct (write_ok K c HK HG m os sched hb EH HO HN HM FT WS) as [(file & E)|(_ & _ & [X|(a & l & b & EO & LN & bl & GB & X)])].
  - exists file. split; [exact E|]. intros s RS. cbv zeta.
    destruct (write_gen K c idZ idZ idZ idZ T53 HK (d_WC c HG) (d_WT c HG) (d_HC c HG) (d_HT c HG)
      (fun x H => mid_i64 _ (d_BE x H)) (fun t H => mid_i64 _ (d_BT t H)) m os sched file (fine_default os HO) FT E) as (hb' & chunks & ps & f & EH' & EC & CH & GC & ES & EF).
    rewrite EH in EH'. injection EH' as <-.
    assert (SM : Forall (small K (cf_compress c)) ps).
    { apply Forall_forall. intros p Hp. destruct (Forall2_in_r _ _ _ _ GC Hp) as (ch & IC & bl & -> & GB). apply small_size; [exact HW|].
      rewrite (wf_pb K HW). destruct GB as (_ & _ & SH). apply block_size in SH. destruct (concat_part ch chunks IC) as (a & b & EA). rewrite EC in EA.
      rewrite Forall_forall in CH. pose proof (MO a ch b EA (proj2 (CH ch IC))). lia. }
    destruct (read_gen K c idZ idZ idZ idZ T53 HK (d_WC c HG) (d_WT c HG) (d_HC c HG) (d_HT c HG)
      (fun x H => mid_i64 _ (d_BE x H)) (fun t H => mid_i64 _ (d_BT t H)) m hb chunks ps f sched s EH GC WS ES) as (m' & EP & ER); auto.
    { apply small_size; [exact HW|]. rewrite (wf_hb K HW). lia. }
    rewrite EF in ER. rewrite ER. cbn [pr_groups pr_end pr_meta]. split; [reflexivity|]. split; [|split; [|exact (header_meta c m hb m' EH EP)]].
    + intros t. rewrite (chunks_only t (kept_with c idZ idZ) chunks (kept_is_type c)), EC. reflexivity.
    + intros TS. rewrite (sorted_chunks (kept_with c idZ idZ) chunks (kept_is_type c)), EC; [reflexivity|]. rewrite EC. exact TS.
  - exfalso. revert X. apply deflate_small; [exact HW|]. rewrite (wf_hb K HW). lia.
  - exfalso. revert X. apply deflate_small; [exact HW|]. rewrite (wf_pb K HW). destruct GB as (_ & _ & SH). apply block_size in SH.
    pose proof (MO a l b EO LN). lia.
Qed.
End Whole.
Lemma moderate_each os : Forall (fun o => bulk o <= 4187) os -> moderate os.
Proof.
  intros H a b c -> L. apply Forall_app in H as [_ H]. apply Forall_app in H as [H _]. rewrite Forall_forall in H.
  pose proof (total_le bulk (fun _ => 4187) b H) as T. rewrite total_const in T. lia.
Qed.

(* ---- too much text ---- *)
Lemma node_contents K c n w w' e : w_size w = 0 -> 0 <= w_contents w < 8000 -> pbf_object K c (ONode n) w = Ok (w', e) ->
  w_size w' = 0 /\ w_contents w' = w_contents w + 1.
Proof.
  intros HS HC E. unfold pbf_object, check_block_contents_counter in E. unfold max_block_contents in E.
  destruct (Z.geb_spec (w_contents w) 8000); [lia|]. rewrite HS in E. change (0 >? _) with false in E. cbn [obind] in E.
  assert (EU : to_u16 (w_contents w + 1) = w_contents w + 1) by (unfold to_u16; apply Z.mod_small; lia). rewrite EU in E.
  set (w1 := with_count _ w) in E. assert (A : w_size w1 = 0 /\ w_contents w1 = w_contents w + 1) by (split; [exact HS|reflexivity]).
  set (w2 := need_group _ w1) in E. assert (B : w_size w2 = 0 /\ w_contents w2 = w_contents w + 1).
  { unfold w2, need_group. destruct (w_ptr _ w1); exact A. }
  clearbody w2. destruct (cf_dense c).
  - unfold write_dense_node in E.
    repeat match type of E with
    | obind (obind ?x _) _ = _ => destruct x as [?|?| |]; cbn [obind] in E; try discriminate
    | obind (let (_, _) := ?x in _) _ = _ => destruct x
    | obind (match ?x with Some _ => _ | None => _ end) _ = _ => destruct x; cbn [obind] in E; try discriminate
    end.
    injection E as <- _. exact B.
  - unfold write_node in E.
    repeat match type of E with
    | obind (obind ?x _) _ = _ => destruct x as [?|?| |]; cbn [obind] in E; try discriminate
    | obind (let (_, _) := ?x in _) _ = _ => destruct x
    | obind (match ?x with Some _ => _ | None => _ end) _ = _ => destruct x; cbn [obind] in E; try discriminate
    end.
    injection E as <- _. exact B.
Qed.
Lemma nodes_contents K c os : (forall o, In o os -> obj_type o = NODE) -> forall w w', w_size w = 0 -> 0 <= w_contents w ->
  w_contents w + Z.of_nat (List.length os) <= 8000 -> pbf_objects K c os w = Ok w' -> w_contents w' = w_contents w + Z.of_nat (List.length os).
Proof.
  induction os as [|o os IH]; intros HN w w' HS HC HL E; cbn [pbf_objects List.length] in *.
  - injection E as <-. lia.
  - destruct (pbf_object K c o w) as [[w1 e]|?| |] eqn:EO; cbn [obind] in E; try discriminate. destruct e; [discriminate|].
    pose proof (HN o (or_introl eq_refl)) as HO. destruct o as [n|y|y]; try discriminate.
    destruct (node_contents K c n w w1 None HS ltac:(lia) EO) as [S1 C1].
    rewrite (IH (fun o H => HN o (or_intror H)) w1 w' S1 ltac:(lia) ltac:(lia) E). lia.
Qed.
Lemma read_too_big K t b rest s fuel : codec_ok K -> slen t <= 1000 -> reads_ok s -> in_i32 (b_raw_size b) ->
  blen (ser_blob K b) <= int32_max ->
  (limit < blen (ser_blob K b) \/ (b_raw b = None /\ limit < b_raw_size b)) ->
  exists e, read_blobs_loop K (S fuel) (mkIfd (frame K t b ++ rest) s) = ([], e) /\ (e = Throw ERuntime \/ e = AssertFail).
Proof.
  intros HK Ht Hs Hr Hi Hb. unfold frame. set (out := ser_blob K b) in *. pose proof (blen_nonneg out).
  assert (Hout : in_i32 (blen out)) by (unfold in_i32, int32_min, int32_max in *; lia).
  assert (EI : to_i32 (blen out) = blen out) by (apply to_i32_id; exact Hout). rewrite EI.
  pose proof (ok_bh_small K HK t (blen out) Ht Hout) as Hh. pose proof (ok_bh K HK t (blen out) Hout Hh) as Ph.
  set (head := ser_bh K (mkBH t (blen out))) in *. pose proof (blen_nonneg head).
  assert (Eu : to_u32 (blen head) = blen head) by (unfold to_u32; lia). rewrite Eu.
  destruct (header_size (be32 (blen head)) head eq_refl (be_value_be32 (blen head) ltac:(lia)) Hh) as (a1 & a2 & a3 & a4 & EN & EV & EB).
  rewrite EN, <- app_assoc, <- app_assoc. cbn [read_blobs_loop]. unfold read_blob_header.
  destruct (read_n_ok 4 (mkIfd ([a1; a2; a3; a4] ++ head ++ out ++ rest) s) Hs ltac:(cbn [in_rest]; rewrite app_length; cbn; lia)) as (s1 & E1 & Hs1).
  cbn [in_rest] in E1. rewrite E1. cbn [app firstn skipn]. rewrite EV, EB.
  destruct (read_n_ok (Z.to_nat (blen head)) (mkIfd (head ++ out ++ rest) s1) Hs1 ltac:(cbn [in_rest]; rewrite to_nat_blen, app_length; lia)) as (s2 & E2 & Hs2).
  cbn [in_rest] in E2. rewrite firstn_app_exact, skipn_app_exact in E2 by apply to_nat_blen. rewrite E2, Ph. cbn [bh_datasize bh_type].
  unfold read_blob. destruct (Z.ltb_spec (blen out) 0); [lia|]. cbn [orb].
  destruct (Z.gtb_spec (blen out) max_uncompressed_blob_size) as [L|L]; [eexists; split; [reflexivity|auto]|].
  destruct (read_n_ok (Z.to_nat (blen out)) (mkIfd (out ++ rest) s2) Hs2 ltac:(cbn [in_rest]; rewrite to_nat_blen, app_length; lia)) as (s3 & E3 & Hs3).
  cbn [in_rest] in E3. rewrite firstn_app_exact, skipn_app_exact in E3 by apply to_nat_blen. rewrite E3.
  unfold max_uncompressed_blob_size, limit in *. destruct Hb as [Hb|[B1 B2]]; [lia|].
  assert (PB : par_blob K out = Some b) by (apply (ok_blob K HK b Hr); exact L). rewrite PB. unfold unpack_blob. rewrite B1. destruct (b_zlib b); [|eexists; split; [reflexivity|auto]].
  assert (EQ : to_u64 (b_raw_size b) = b_raw_size b) by (unfold to_u64, in_i32, int32_min, int32_max in *; apply Z.mod_small; lia). rewrite EQ.
  unfold max_uncompressed_blob_size. destruct (Z.gtb_spec (b_raw_size b) 33554432); [|lia]. eexists; split; [reflexivity|auto].
Qed.

Section TooMuch.
Variables (K : codec) (c : pcfg).
Hypothesis HK : codec_ok K.
Hypothesis HG : default_gran c.
Hypothesis HW : wire_format K.
Notation idZ := (fun x : Z => x).
Lemma tags_recorded l : incl (flat_map (fun o => tag_texts (o_tags (obj_attrs o))) l) (flat_map (recorded c) l).
Proof.
  intros s. rewrite !in_flat_map. intros (o & Ho & Hs). exists o. split; [exact Ho|]. unfold recorded, attr_texts. rewrite !in_app_iff. auto.
Qed.
Lemma too_much m os sched : bounds_defined (mt_bounds m) = false \/ bounds_ok (mt_bounds m) -> slen (cf_generator c) <= 1000000 ->
  Forall object_ok os -> Forall near_ids os -> (forall o, In o os -> obj_type o = NODE) -> Z.of_nat (List.length os) <= 8000 -> few_texts os ->
  limit < total slen (nodup string_dec (flat_map (fun o => tag_texts (o_tags (obj_attrs o))) os)) -> total bulk os <= 2000000000 ->
  writes_complete sched ->
  (exists file, write_pbf K c m os sched = Ok file /\ forall s, reads_ok s ->
     let r := read_pbf K (cf_type c) (mkIfd file s) in
     pr_groups r = [] /\ (pr_end r = Throw ERuntime \/ pr_end r = AssertFail)) \/
  (cf_compress c = true /\ write_pbf K c m os sched = Throw ERuntime).
Proof.
  intros HB GL HO HN HT HL FT TM TB WS. destruct (header_of_ok c m HB) as (hb & EH).
  pose proof (header_size_ok c m hb EH GL) as HS.
  assert (HM : Forall known_members os) by (apply Forall_forall; intros o Ho; pose proof (HT o Ho); destruct o; try discriminate; exact I).
  destruct (write_ok K c HK HG m os sched hb EH HO HN HM FT WS) as [(file & E)|(X & Y & _)]; [left|right; auto].
  exists file. split; [exact E|]. intros s RS. cbv zeta.
  unfold write_pbf, pbf_init in E. rewrite EH in E. cbn [obind] in E.
  change (w_fd (pwriter_new (mkOfd [] sched))) with (mkOfd [] sched) in E.
  destruct (store_blob K (cf_compress c) "OSMHeader" (ser_hb K hb) (mkOfd [] sched)) as [f|?| |] eqn:ES; cbn [obind] in E; try discriminate.
  change (with_fd f (pwriter_new (mkOfd [] sched))) with (pwriter_new f) in E.
  destruct (pbf_objects K c os (pwriter_new f)) as [w2|?| |] eqn:EO; cbn [obind] in E; try discriminate.
  pose proof (d_WC c HG) as WC. pose proof (d_WT c HG) as WT. pose proof (d_HC c HG) as HC. pose proof (d_HT c HG) as HT'.
  pose (HE := fun x (H : in_i32 x) => mid_i64 _ (d_BE x H)). pose (HF := fun t (H : T53 t) => mid_i64 _ (d_BT t H)).
  destruct (run_objects K c idZ idZ idZ idZ T53 HK WC WT HC HT' HE HF sched (ser_hb K hb) os [] [] [] [] (pwriter_new f) w2) as (ch & ps & l & RN & EQ); auto.
  { constructor; [apply winv_new|cbn; lia|constructor|unfold room; cbn; lia|cbn [data map store_all]; rewrite ES; reflexivity|constructor]. }
  { apply fine_default; exact HO. }
  pose proof (nodes_contents K c os HT (pwriter_new f) w2 eq_refl (Z.le_refl 0) HL EO) as EC. cbn [w_contents pwriter_new] in EC.
  destruct RN as [I1 I2 I3 I4 I5 I6]. rewrite (wi_contents _ _ _ _ _ I1) in EC. cbn [app] in EQ.
  assert (CN : ch = []).
  { destruct ch as [|x ch]; [reflexivity|exfalso]. inversion I6 as [|? p ? ps' (NE & _) R]; subst. rewrite !app_length in EC. cbn [List.concat] in EC. rewrite app_length in EC.
    destruct x; [congruence|]. cbn [List.length] in EC. lia. }
  subst ch. inversion I6; subst ps. cbn [List.concat app] in EQ. subst l. cbn [data map] in I5.
  destruct (final_block_good K c idZ idZ idZ idZ T53 HK HC HT' HE HF os w2 I1 I3 I2 I4) as (b & EB & GB).
  assert (BM : limit < blen (put_pb b)).
  { destruct GB as (_ & _ & SH). apply block_more in SH.
    eapply Z.lt_le_trans; [exact TM|]. eapply Z.le_trans; [|exact SH]. apply total_incl; [apply slen_nonneg|apply NoDup_nodup|].
    intros t Ht. apply nodup_In in Ht. apply nodup_In. apply tags_recorded, Ht. }
  assert (BS : blen (put_pb b) <= 2000000520) by (destruct GB as (_ & _ & SH); apply block_size in SH; lia).
  assert (NE : w_contents w2 >? 0 = true).
  { rewrite (wi_contents _ _ _ _ _ I1). destruct os as [|o os']; [|cbn [List.length]; lia]. exfalso. revert TM. unfold limit. cbn. discriminate. }
  unfold pbf_final in E. rewrite NE in E. unfold store_primitive_block in E. rewrite EB in E. cbn [obind] in E.
  destruct (store_all_frames K (cf_compress c) _ (mkOfd [] sched) (w_fd w2) WS I5) as (ms & FM & WS2 & EF).
  inversion FM as [|? hm ? ms' EM FM']; subst. inversion FM'; subst. cbn [fst snd combine map List.concat fd_out app] in EF. rewrite app_nil_r in EF.
  destruct (store_blob_complete K (cf_compress c) "OSMData" (ser_pb K b) (w_fd w2) WS2) as (s' & _ & EST). rewrite EST in E.
  destruct (blob_message K (cf_compress c) (ser_pb K b)) as [bm|?| |] eqn:EBM; cbn [obind] in E; try discriminate.
  cbn [w_fd fd_out] in E. injection E as <-. rewrite EF.
  assert (SH : small K (cf_compress c) (ser_hb K hb)) by (apply small_size; [exact HW|rewrite (wf_hb K HW); lia]).
  pose proof (frame_ok K (cf_compress c) "OSMHeader" (ser_hb K hb) hm HK ltac:(cbn; lia) SH EM) as FH.
  unfold read_pbf, read_blobs. cbn [in_rest].
  destruct (read_frames K [("OSMHeader"%string, ser_hb K hb)] [frame K "OSMHeader" hm] ltac:(constructor; [exact FH|constructor])
    (frame K "OSMData" bm) s (S (List.length (frame K "OSMHeader" hm ++ frame K "OSMData" bm))) RS) as (s2 & fuel & RS2 & LF & ER).
  { cbn [List.concat]. rewrite app_nil_r. lia. }
  cbn [List.concat] in ER. rewrite app_nil_r in ER. rewrite ER.
  destruct fuel as [|fuel]; [lia|].
  rewrite (wf_pb K HW) in EBM.
  assert (EI : to_i32 (blen (put_pb b)) = blen (put_pb b)) by (apply to_i32_id; unfold in_i32, int32_min, int32_max, limit in *; lia).
  unfold blob_message in EBM. rewrite EI in EBM.
  destruct (read_too_big K "OSMData" bm [] s2 fuel HK ltac:(cbn; lia) RS2) as (e & EL & HEe).
  { destruct (cf_compress c); [unfold zlib_compress in EBM; destruct (_ >? _); cbn [obind] in EBM; [discriminate|]|]; injection EBM as <-; cbn [b_raw_size];
      unfold in_i32, int32_min, int32_max, limit in *; lia. }
  { rewrite (wf_blob K HW). destruct (cf_compress c).
    - unfold zlib_compress in EBM. destruct (Z.gtb_spec (blen (zdeflate K (put_pb b))) max_uncompressed_blob_size) as [G|G]; cbn [obind] in EBM; [discriminate|].
      injection EBM as <-. pose proof (blob_size2 (zdeflate K (put_pb b)) (blen (put_pb b))). unfold max_uncompressed_blob_size, int32_max in *. lia.
    - injection EBM as <-. pose proof (blob_size1 (put_pb b) (blen (put_pb b))). unfold int32_max. lia. }
  { rewrite (wf_blob K HW). destruct (cf_compress c).
    - unfold zlib_compress in EBM. destruct (_ >? _); cbn [obind] in EBM; [discriminate|]. injection EBM as <-. right. split; [reflexivity|exact BM].
    - injection EBM as <-. left. pose proof (blob_more (put_pb b) (blen (put_pb b))). lia. }
  rewrite app_nil_r in EL. rewrite EL. cbn [app parse_blobs String.eqb Ascii.eqb Bool.eqb].
  rewrite (ok_hb K HK hb); [|exact (header_of_fits c idZ idZ idZ idZ T53 WC WT HC HT' HE HF m hb EH)|rewrite (wf_hb K HW); unfold limit; lia].
  destruct (header_reads c m hb EH) as (m' & ->). cbn [pr_groups pr_end]. auto.
Qed.
End TooMuch.

(* ---- an example ---- *)
Lemma faces_len k : forall n, slen (faces k n) = 4 * Z.of_nat k.
Proof.
  induction k as [|k IH]; intros n; [reflexivity|]. cbn [faces]. specialize (IH (n / 2)). unfold slen in *. cbn [String.length]. lia.
Qed.
Lemma faces_inj k : forall n m, 0 <= n < 2 ^ Z.of_nat k -> 0 <= m < 2 ^ Z.of_nat k -> faces k n = faces k m -> n = m.
Proof.
  induction k as [|k IH]; intros n m Hn Hm E; [cbn in *; lia|]. cbn [faces] in E. injection E as E1 E2.
  rewrite Nat2Z.inj_succ, Z.pow_succ_r in Hn, Hm by lia.
  assert (n / 2 = m / 2) by (apply IH; [| |exact E2]; split; try (apply Z.div_pos; lia); apply Z.div_lt_upper_bound; lia).
  assert (Z.odd n = Z.odd m) by (destruct (Z.odd n), (Z.odd m); congruence).
  rewrite (Z.div_mod n 2), (Z.div_mod m 2), !Zmod_odd by lia. rewrite H, H0. reflexivity.
Qed.
Lemma faces_no_nul k : forall n, no_nul (faces k n).
Proof.
  induction k as [|k IH]; intros n; [exact I|]. cbn [faces no_nul]. destruct (Z.odd n); repeat split; try discriminate; apply IH.
Qed.
Definition face_value (i : Z) : string := faces (Z.to_nat 255) i.
Definition numbers (n : Z) : list Z := map Z.of_nat (seq 0 (Z.to_nat n)).
Lemma numbers_in n i : In i (numbers n) <-> 0 <= i < n.
Proof.
  unfold numbers. rewrite in_map_iff. setoid_rewrite in_seq. split.
  - intros (k & <- & H). lia.
  - intros H. exists (Z.to_nat i). lia.
Qed.
Lemma numbers_nodup n : NoDup (numbers n).
Proof. apply FinFun.Injective_map_NoDup; [intros a b H; lia|apply seq_NoDup]. Qed.
Lemma numbers_len n : 0 <= n -> Z.of_nat (List.length (numbers n)) = n.
Proof. intros H. unfold numbers. rewrite map_length, seq_length. lia. Qed.
Lemma face_values_nodup : NoDup (map face_value (numbers 40000)).
Proof.
  assert (G : forall l, NoDup l -> (forall x, In x l -> 0 <= x < 40000) -> NoDup (map face_value l)).
  { induction 1 as [|x l N ND IH]; intros H; [constructor|]. cbn [map]. constructor; [|apply IH; intros; apply H; right; assumption].
    rewrite in_map_iff. intros (y & E & Hy). apply faces_inj in E; [subst; exact (N Hy)| |].
    - pose proof (H y (or_intror Hy)). assert (40000 < 2 ^ Z.of_nat (Z.to_nat 255)) by (vm_compute; reflexivity). lia.
    - pose proof (H x (or_introl eq_refl)). assert (40000 < 2 ^ Z.of_nat (Z.to_nat 255)) by (vm_compute; reflexivity). lia. }
  apply G; [apply numbers_nodup|]. intros x Hx. apply numbers_in, Hx.
Qed.
Lemma face_nodes_numbers : face_nodes = map face_node (numbers 8000).
Proof. unfold face_nodes, numbers. rewrite map_map. reflexivity. Qed.
Definition face_keys : list string := ["a"; "b"; "c"; "d"; "e"]%string.
Lemma face_in i s : In s (texts (face_node i)) ->
  In s face_keys \/ s = "joto"%string \/ exists j, 0 <= j < 5 /\ s = face_value (5 * i + j).
Proof.
  unfold texts. rewrite !in_app_iff. unfold tag_texts. rewrite in_flat_map.
  change (o_tags (obj_attrs (face_node i))) with (map (face_tag i) [0; 1; 2; 3; 4]). change (o_user (obj_attrs (face_node i))) with "joto"%string.
  intros [(t & Ht & Hs)|[Hs|Hs]].
  - apply in_map_iff in Ht as (j & <- & Hj). destruct Hs as [<-|[<-|[]]].
    + left. cbn [face_tag tkey]. destruct Hj as [<-|[<-|[<-|[<-|[<-|[]]]]]]; vm_compute; tauto.
    + right. right. exists j. split; [destruct Hj as [<-|[<-|[<-|[<-|[<-|[]]]]]]; lia|reflexivity].
  - destruct Hs as [<-|[]]. auto.
  - destruct Hs.
Qed.
Lemma face_node_in o : In o face_nodes -> exists i, 0 <= i < 8000 /\ o = face_node i.
Proof. rewrite face_nodes_numbers, in_map_iff. intros (i & <- & H). apply numbers_in in H. eauto. Qed.
Lemma face_few : few_texts face_nodes.
Proof.
  intros a b c E _. pose (all := face_keys ++ "joto"%string :: map face_value (numbers 40000)).
  eapply Z.le_trans; [apply inj_le; apply (NoDup_incl_length (l' := all)); [apply NoDup_nodup|]|].
  - intros s Hs. apply nodup_In, in_flat_map in Hs as (o & Ho & Hs).
    destruct (face_node_in o) as (i & Hi & ->); [rewrite E, !in_app_iff; auto|]. unfold all. rewrite in_app_iff.
    apply face_in in Hs as [Hs|[->|(j & Hj & ->)]]; [auto|right; left; reflexivity|]. right. right. apply in_map_iff. eexists. split; [reflexivity|]. apply numbers_in. lia.
  - unfold all. rewrite app_length. cbn [List.length]. rewrite map_length. pose proof (numbers_len 40000 ltac:(lia)). change (List.length face_keys) with 5%nat. lia.
Qed.
Lemma face_ok : Forall object_ok face_nodes /\ Forall near_ids face_nodes /\ (forall o, In o face_nodes -> obj_type o = NODE).
Proof.
  assert (KEY : forall j, In j [0; 1; 2; 3; 4] -> no_nul (String (ascii_of_N (Z.to_N (97 + j))) "")).
  { intros j [<-|[<-|[<-|[<-|[<-|[]]]]]]; vm_compute; split; try exact I; discriminate. }
  split; [|split].
  - apply Forall_forall. intros o Ho. destruct (face_node_in o Ho) as (i & Hi & ->). split.
    + unfold face_node. cbn [obj_attrs n_attrs]. unfold attrs_ok. cbn [o_id o_version o_changeset o_timestamp o_uid o_user o_tags].
      unfold in_i64, in_u32, in_i32, int64_min, int64_max, int32_min, int32_max.
      do 5 (split; [lia|]). split; [split; [vm_compute; repeat split; discriminate|vm_compute; discriminate]|].
      apply Forall_forall. intros t Ht. apply in_map_iff in Ht as (j & <- & Hj). split; [apply KEY, Hj|apply faces_no_nul].
    + unfold face_node. cbn [n_pos px py]. unfold in_i32, int32_min, int32_max. lia.
  - apply Forall_forall. intros o Ho. destruct (face_node_in o Ho) as (i & Hi & ->). split; [|exact I].
    unfold face_node. cbn [obj_attrs n_attrs o_id]. unfold mid. lia.
  - intros o Ho. destruct (face_node_in o Ho) as (i & Hi & ->). reflexivity.
Qed.
Lemma face_bulk i : bulk (face_node i) = 5489.
Proof.
  unfold bulk. change (o_tags (obj_attrs (face_node i))) with (map (face_tag i) [0; 1; 2; 3; 4]). rewrite total_map, !total_cons. zn.
  cbn [face_tag tkey tvalue]. rewrite !faces_len. change (slen (o_user (obj_attrs (face_node i)))) with 4.
  assert (S1 : forall a, slen (String a "") = 1) by reflexivity. rewrite !S1. unfold face_node. rewrite Z2Nat.id by lia. lia.
Qed.
Lemma face_total : total bulk face_nodes <= 2000000000.
Proof.
  rewrite face_nodes_numbers, total_map. rewrite Z.le_trans with (m := total (fun _ => 5489) (numbers 8000)); [reflexivity| |].
  - apply total_le. intros i _. rewrite face_bulk. lia.
  - rewrite total_const, numbers_len by lia. lia.
Qed.
Lemma face_limit : limit < total slen (nodup string_dec (flat_map (fun o => tag_texts (o_tags (obj_attrs o))) face_nodes)).
Proof.
  eapply Z.lt_le_trans; [|apply (total_incl slen (map face_value (numbers 40000)) slen_nonneg face_values_nodup)].
  - rewrite total_map. eapply Z.lt_le_trans; [|apply (total_le (fun _ => 1020))].
    + rewrite total_const, numbers_len by lia. unfold limit. lia.
    + intros i _. unfold face_value. rewrite faces_len. lia.
  - intros s Hs. rewrite nodup_In. apply in_map_iff in Hs as (n & <- & Hn). rewrite numbers_in in Hn. rewrite in_flat_map.
    exists (face_node (n / 5)). split.
    + rewrite face_nodes_numbers. apply in_map. rewrite numbers_in. split; [apply Z.div_pos; lia|apply Z.div_lt_upper_bound; lia].
    + unfold tag_texts. rewrite in_flat_map. exists (face_tag (n / 5) (n mod 5)). split.
      * change (o_tags (obj_attrs (face_node (n / 5)))) with (map (face_tag (n / 5)) [0; 1; 2; 3; 4]). apply in_map.
        pose proof (Z.mod_pos_bound n 5 ltac:(lia)). cbn [In]. lia.
      * right. left. cbn [face_tag tvalue]. unfold face_value. f_equal. pose proof (Z_div_mod_eq_full n 5). lia.
Qed.
Lemma protobuf_wire : wire_format protobuf.
Proof.
  constructor; try reflexivity. intros d. change (zdeflate protobuf d) with d. pose proof (blen_nonneg d). pose proof (Z.div_pos (blen d) 1000 ltac:(lia) ltac:(lia)). lia.
Qed.
Lemma large_refuted : exists os file, Forall object_ok os /\ Forall near_ids os /\ Forall known_members os /\ few_texts os /\
  (forall o t, In o os -> In t (texts o) -> slen t <= 1020) /\ write_pbf protobuf plain_cfg meta_new os [] = Ok file /\
  forall s, reads_ok s -> pr_groups (read_pbf protobuf FtOSM (mkIfd file s)) = [] /\ pr_end (read_pbf protobuf FtOSM (mkIfd file s)) <> Ok tt.
Proof.
  destruct face_ok as (A & B & C).
  destruct (too_much protobuf plain_cfg protobuf_ok ltac:(split; reflexivity) protobuf_wire meta_new face_nodes [] (or_introl eq_refl) ltac:(cbn; lia) A B C) as [(file & E & R)|(H & _)].
  - rewrite face_nodes_numbers, map_length, numbers_len; lia.
  - apply face_few.
  - apply face_limit.
  - apply face_total.
  - constructor.
  - exists face_nodes, file. split; [exact A|]. split; [exact B|].
    split; [apply Forall_forall; intros o Ho; destruct (face_node_in o Ho) as (i & _ & ->); exact I|]. split; [apply face_few|].
    split; [|split; [exact E|]].
    + intros o t Ho Ht. destruct (face_node_in o Ho) as (i & Hi & ->). apply face_in in Ht as [Ht|[->|(j & _ & ->)]].
      * destruct Ht as [<-|[<-|[<-|[<-|[<-|[]]]]]]; vm_compute; discriminate.
      * vm_compute; discriminate.
      * unfold face_value. rewrite faces_len. lia.
    + intros s RS. specialize (R s RS). cbv zeta in R. change (cf_type plain_cfg) with FtOSM in R. destruct R as [R1 R2]. split; [exact R1|]. destruct R2 as [R2|R2]; rewrite R2; discriminate.
  - discriminate.
Qed.
