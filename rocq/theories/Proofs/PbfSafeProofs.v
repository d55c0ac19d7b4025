(** Reading well-formed blocks of any origin is never undefined. *)
From Verif Require Import Base.Prelude Model.Osm Model.Utils Model.Attr Model.OsmFile Model.Handler Spec.Protobuf Model.Pbf
  Spec.UtilsSpec Spec.TagsSpec Spec.HandlerSpec Spec.PbfSpec Spec.PbfExamples Proofs.PbfFrameProofs Proofs.PbfDecodeProofs.

Definition def {A} (x : outcome A) : Prop := (exists a, x = Ok a) \/ (exists e, x = Throw e).
Lemma def_bind {A B} (x : outcome A) (f : A -> outcome B) : def x -> (forall a, x = Ok a -> def (f a)) -> def (obind x f).
Proof. intros [[a ->]|[e ->]] H; cbn [obind]; [apply H; reflexivity|right; eauto]. Qed.
Lemma def_ok {A} (a : A) : def (Ok a).
Proof. left; eauto. Qed.
Lemma def_i64 x : in_i64 x -> def (i64 x).
Proof. intros H. rewrite i64_ok by exact H. apply def_ok. Qed.
Lemma def_str b i : sid_ok b i -> def (str (pb_strings b) i).
Proof.
  intros [H1 H2]. unfold str, rep. destruct (i <? 0) eqn:E; [lia|].
  destruct (nth_error (pb_strings b) (Z.to_nat i)) eqn:N; [apply def_ok|]. apply nth_error_None in N. lia.
Qed.
Lemma def_rep {A} (l : list A) e : 0 <= e < Z.of_nat (List.length l) -> exists a, rep l e = Ok a /\ nth_error l (Z.to_nat e) = Some a.
Proof.
  intros H. unfold rep. destruct (e <? 0) eqn:E; [lia|]. destruct (nth_error l (Z.to_nat e)) eqn:N; [eauto|]. apply nth_error_None in N. lia.
Qed.
Lemma def_user s a : def (user_result s a).
Proof. unfold user_result. destruct (user_text s a) as [a' [e|]]; [right; eauto|left; eauto]. Qed.
Lemma def_info b i a : (match i with Some i => info_wf b i | None => True end) -> def (decode_info (pb_strings b) (date_factor b) i a).
Proof.
  destruct i as [i|]; intros H; [|apply def_ok]. destruct H as [H1 H2]. cbn [decode_info]. apply def_bind; [apply def_i64; exact H2|]. intros ts _.
  cbv zeta. apply def_bind; [apply def_str; exact H1|]. intros u _. apply def_bind; [apply def_user|]. intros a2 _. apply def_ok.
Qed.
Lemma def_tags b ks : forall vs ts, List.length ks = List.length vs -> Forall (sid_ok b) ks -> Forall (sid_ok b) vs -> def (decode_tags (pb_strings b) ks vs ts).
Proof.
  induction ks as [|k ks IH]; intros vs ts HL H1 H2; cbn [decode_tags]; [apply def_ok|]. destruct vs as [|v vs]; [discriminate|].
  inversion H1; inversion H2; subst. apply def_bind; [apply def_str; assumption|]. intros x _. apply def_bind; [apply def_str; assumption|]. intros y _.
  apply IH; auto.
Qed.
Lemma def_common b c : common_wf b c -> def (decode_common (pb_strings b) (date_factor b) c).
Proof.
  intros (HL & H1 & H2 & HI). unfold decode_common. apply def_bind; [apply def_info; exact HI|]. intros a _.
  apply def_bind; [apply def_tags; assumption|]. intros; apply def_ok.
Qed.
Lemma def_coord b off v : coord_wf b off v -> def (decode_coord v (pb_granularity b) off).
Proof.
  intros [H1 H2]. unfold decode_coord. rewrite i64_ok by exact H1. cbn [obind]. rewrite i64_ok by exact H2. cbn [obind]. apply def_ok.
Qed.
Lemma def_pos b lon lat : coord_wf b (pb_lon_offset b) lon -> coord_wf b (pb_lat_offset b) lat -> def (decode_pos b lon lat).
Proof.
  intros H1 H2. unfold decode_pos. apply def_bind; [apply def_coord; exact H1|]. intros x _. apply def_bind; [apply def_coord; exact H2|]. intros; apply def_ok.
Qed.
Lemma def_node b n : node_wf b n -> def (decode_node b n).
Proof.
  intros (H1 & H2 & H3). unfold decode_node. apply def_bind; [apply def_common; exact H1|]. intros a _. apply def_bind; [apply def_pos; assumption|].
  intros; apply def_ok.
Qed.
Lemma def_way b w : common_wf b (pw_common w) -> def (decode_way b w).
Proof. intros H. unfold decode_way. apply def_bind; [apply def_common; exact H|]. intros; apply def_ok. Qed.
Lemma def_members b ts : forall ref ids roles ms, List.length ids = List.length ts -> List.length roles = List.length ts -> Forall (sid_ok b) roles ->
  def (decode_members (pb_strings b) ref ts ids roles ms).
Proof.
  induction ts as [|t ts IH]; intros ref ids roles ms H1 H2 H3; cbn [decode_members]; [apply def_ok|].
  destruct ids as [|i ids]; [discriminate|]. destruct roles as [|r roles]; [discriminate|]. inversion H3; subst.
  apply def_bind; [apply def_str; assumption|]. intros role _. destruct (add_member ms (member_char t) (to_i64 (to_u64 (ref + i))) role) as [ms' [e|]];
    [right; eauto|]. apply IH; auto.
Qed.
Lemma def_relation b r : rel_wf b r -> def (decode_relation b r).
Proof.
  intros (H1 & H2 & H3 & H4). unfold decode_relation. apply def_bind; [apply def_common; exact H1|]. intros a _.
  apply def_bind; [apply def_members; assumption|]. intros; apply def_ok.
Qed.
(* dense nodes *)
Definition enc_tags (ps : list (Z * Z)) : list Z := flat_map (fun p => [fst p; snd p]) ps ++ [0].
Lemma def_kv b ps rest : Forall (fun p => fst p <> 0 /\ sid_ok b (fst p) /\ sid_ok b (snd p)) ps -> forall fuel ts,
  (List.length ps <= fuel)%nat -> exists r, decode_kv fuel (pb_strings b) (enc_tags ps ++ rest) ts = r /\ def r /\ (forall kv ts', r = Ok (kv, ts') -> kv = rest).
Proof.
  induction ps as [|[k v] ps IH]; intros HA fuel ts HF; unfold enc_tags.
  - cbn [flat_map app]. exists (Ok (rest, ts)). split; [destruct fuel; reflexivity|]. split; [apply def_ok|]. intros kv ts' [= <- _]. reflexivity.
  - inversion HA as [|? ? (H1 & H2 & H3) HA']; subst. cbn [fst snd] in *. cbn [flat_map app fst snd]. cbn [List.length] in HF.
    destruct fuel as [|fuel]; [lia|]. cbn [decode_kv]. destruct (k =? 0) eqn:E; [lia|].
    destruct (def_str b k H2) as [[x ->]|[e ->]]; cbn [obind]; [|eexists; split; [reflexivity|]; split; [right; eauto|discriminate]].
    destruct (def_str b v H3) as [[y ->]|[e ->]]; cbn [obind]; [|eexists; split; [reflexivity|]; split; [right; eauto|discriminate]].
    apply (IH HA' fuel (tl_add ts x y)). lia.
Qed.
Definition dtags (tags : list (list (Z * Z))) : list Z := flat_map enc_tags tags.
Lemma sums_skip P a l e x : Forall P (sums a l) -> nth_error l e = Some x -> forall s, s = fold_left Z.add (firstn e l) a -> P (s + x).
Proof.
  revert a e. induction l as [|y l IH]; intros a e HA N s ->; [destruct e; discriminate|]. cbn [sums] in HA. inversion HA; subst.
  destruct e as [|e]; cbn in *; [injection N as <-; assumption|]. eapply IH; eauto.
Qed.
Definition upto (l : list Z) (e : Z) : Z := fold_left Z.add (firstn (Z.to_nat e) l) 0.
Lemma upto_next l e x : 0 <= e -> nth_error l (Z.to_nat e) = Some x -> upto l (e + 1) = upto l e + x.
Proof.
  intros H N. unfold upto. replace (Z.to_nat (e + 1)) with (S (Z.to_nat e)) by lia. revert N. generalize (Z.to_nat e) as k. generalize 0 as a.
  induction l as [|y l IH]; intros a k N; [destruct k; discriminate|]. destruct k as [|k]; cbn in *; [injection N as <-; reflexivity|]. apply IH. exact N.
Qed.
Lemma sums_at (P : Z -> Prop) l e x : Forall P (sums 0 l) -> nth_error l (Z.to_nat e) = Some x -> P (upto l e + x).
Proof. intros H N. eapply sums_skip; [exact H|exact N|reflexivity]. Qed.

Section Dense.
Variables (b : pblock) (d : pdense).
Hypothesis HD : dense_wf b d.
Let n := List.length (dn_id d).
Definition dinv (e : Z) (s : dstate) : Prop :=
  ds_id s = upto (dn_id d) e /\ ds_lat s = upto (dn_lat d) e /\ ds_lon s = upto (dn_lon d) e /\
  (exists tags, ds_kv s = dtags tags /\ Forall (Forall (fun p => fst p <> 0 /\ sid_ok b (fst p) /\ sid_ok b (snd p))) tags) /\
  match dn_info d with
  | Some i => ds_uid s = upto (di_uid i) e /\ ds_sid s = upto (di_user_sid i) e /\ ds_cs s = upto (di_changeset i) e /\ ds_ts s = upto (di_timestamp i) e
  | None => True
  end.
Lemma def_dinfo e s a : 0 <= e < Z.of_nat n -> dinv e s ->
  exists r, decode_dinfo (pb_strings b) (date_factor b) e (dn_info d) s a = r /\ def r /\
    forall s1 a1, r = Ok (s1, a1) -> ds_kv s1 = ds_kv s /\
      match dn_info d with
      | Some i => ds_uid s1 = upto (di_uid i) (e + 1) /\ ds_sid s1 = upto (di_user_sid i) (e + 1) /\ ds_cs s1 = upto (di_changeset i) (e + 1) /\ ds_ts s1 = upto (di_timestamp i) (e + 1)
      | None => True
      end.
Proof.
  intros He (_ & _ & _ & _ & HI). unfold dense_wf in HD. destruct HD as (_ & _ & _ & _ & _ & _ & W). destruct (dn_info d) as [i|]; cbn [decode_dinfo].
  2:{ eexists. split; [reflexivity|]. split; [apply def_ok|]. intros s1 a1 [= <- _]. auto. }
  destruct HI as (U & S & C & T). destruct W as (L1 & L2 & L3 & L4 & L5 & L6 & W2 & W3 & W4 & W5). fold n in L1, L2, L3, L4, L5, L6.
  destruct (def_rep (di_changeset i) e ltac:(lia)) as (c & E & N); rewrite E; cbn [obind].
  pose proof (sums_at _ _ _ _ W3 N) as B1. rewrite <- C in B1. pose proof (upto_next _ e _ ltac:(lia) N) as X1. rewrite i64_ok by exact B1. cbn [obind]. clear E N.
  destruct (def_rep (di_timestamp i) e ltac:(lia)) as (t & E & N); rewrite E; cbn [obind].
  pose proof (sums_at _ _ _ _ W2 N) as [B2 B2']. rewrite <- T in B2, B2'. pose proof (upto_next _ e _ ltac:(lia) N) as X2. rewrite i64_ok by exact B2. cbn [obind]. clear E N.
  destruct (def_rep (di_uid i) e ltac:(lia)) as (u & E & N); rewrite E; cbn [obind].
  pose proof (sums_at _ _ _ _ W4 N) as B3. rewrite <- U in B3. pose proof (upto_next _ e _ ltac:(lia) N) as X3. rewrite i64_ok by exact B3. cbn [obind]. clear E N.
  destruct (def_rep (di_user_sid i) e ltac:(lia)) as (x & E & N); rewrite E; cbn [obind].
  pose proof (sums_at _ _ _ _ W5 N) as [B4 B4']. rewrite <- S in B4, B4'. pose proof (upto_next _ e _ ltac:(lia) N) as X4.
  rewrite i64_ok by (unfold in_i32, in_i64, int32_min, int32_max, int64_min, int64_max in *; lia). cbn [obind]. clear E N.
  destruct (def_rep (di_version i) e ltac:(lia)) as (v & E & N); rewrite E; cbn [obind]. clear E N.
  change (in_i64 ((ds_ts s + t) * date_factor b)) in B2'. rewrite i64_ok by exact B2'. cbn [obind]. rewrite to_i32_id by exact B4.
  destruct (def_str b _ B4') as [[us E]|[ex E]]; rewrite E; cbn [obind].
  2:{ eexists. split; [reflexivity|]. split; [right; eauto|discriminate]. }
  match goal with |- context [user_result ?p ?q] => destruct (def_user p q) as [[a1 E1]|[ex E1]]; rewrite E1; cbn [obind] end.
  2:{ eexists. split; [reflexivity|]. split; [right; eauto|discriminate]. }
  assert (V : exists a2, match di_visible i with [] => Ok a1 | vs => let! w := rep vs e in Ok (set_visible w a1) end = Ok a2).
  { destruct (di_visible i) as [|v0 vs] eqn:EV; [eauto|]. destruct L6 as [L6|L6]; [discriminate|].
    destruct (def_rep (v0 :: vs) e ltac:(lia)) as (w & E2 & _). rewrite E2. cbn [obind]. eauto. }
  destruct V as (a2 & EV). eexists. split; [reflexivity|]. rewrite EV. cbn [obind]. split; [apply def_ok|]. intros s1 a3 [= <- _].
  cbn [ds_kv ds_uid ds_sid ds_cs ds_ts]. split; [reflexivity|]. rewrite X1, X2, X3, X4, U, S, C, T. auto.
Qed.
Lemma length_enc ps : (List.length ps <= List.length (enc_tags ps))%nat.
Proof. unfold enc_tags. rewrite app_length. assert (H : (List.length ps <= List.length (flat_map (fun p => [fst p; snd p]) ps))%nat) by (induction ps; cbn in *; lia). lia. Qed.
Lemma def_dense1 e s : 0 <= e < Z.of_nat n -> dinv e s ->
  exists r, decode_dense1 b d e s = r /\ def r /\ forall s' o, r = Ok (s', o) -> dinv (e + 1) s'.
Proof.
  intros He HI. pose proof HD as (L1 & L2 & W1 & W2 & W3 & _ & _). fold n in L1, L2. pose proof HI as (I1 & I2 & I3 & (tags & I4 & I5) & _). unfold decode_dense1.
  destruct (def_rep (dn_id d) e He) as (x & E & N); rewrite E; cbn [obind]. pose proof (sums_at _ _ _ _ W1 N) as B1. rewrite <- I1 in B1.
  pose proof (upto_next _ e _ ltac:(lia) N) as X1. rewrite i64_ok by exact B1. cbn [obind]. clear E N.
  destruct (def_dinfo e s (set_id (ds_id s + x) attrs_new) He HI) as (r & E & DR & RR). rewrite E. clear E.
  destruct DR as [[[s1 a] ->]|[ex ->]]; cbn [obind].
  2:{ eexists. split; [reflexivity|]. split; [right; eauto|discriminate]. }
  destruct (RR _ _ eq_refl) as [K1 K2]. clear RR.
  destruct (def_rep (dn_lat d) e ltac:(lia)) as (y & E & N); rewrite E; cbn [obind]. pose proof (sums_at _ _ _ _ W2 N) as [B2 B2']. rewrite <- I2 in B2, B2'.
  pose proof (upto_next _ e _ ltac:(lia) N) as X2. rewrite i64_ok by exact B2. cbn [obind]. clear E N.
  destruct (def_rep (dn_lon d) e ltac:(lia)) as (z & E & N); rewrite E; cbn [obind]. pose proof (sums_at _ _ _ _ W3 N) as [B3 B3']. rewrite <- I3 in B3, B3'.
  pose proof (upto_next _ e _ ltac:(lia) N) as X3. rewrite i64_ok by exact B3. cbn [obind]. clear E N.
  destruct (def_pos b (ds_lon s + z) (ds_lat s + y) B3' B2') as [[p E]|[ex E]]; rewrite E; cbn [obind].
  2:{ eexists. split; [reflexivity|]. split; [right; eauto|discriminate]. }
  assert (KV : exists r, decode_kv (List.length (ds_kv s)) (pb_strings b) (ds_kv s) (o_tags a) = r /\ def r /\
    forall kv ts', r = Ok (kv, ts') -> exists tags', kv = dtags tags' /\ Forall (Forall (fun p => fst p <> 0 /\ sid_ok b (fst p) /\ sid_ok b (snd p))) tags').
  { rewrite I4. destruct tags as [|ps tags].
    - eexists. split; [reflexivity|]. cbn. split; [apply def_ok|]. intros kv ts' [= <- _]. exists []. auto.
    - inversion I5; subst. cbn [dtags flat_map]. fold (dtags tags).
      destruct (def_kv b ps (dtags tags) ltac:(assumption) (List.length (enc_tags ps ++ dtags tags)) (o_tags a)) as (r & ER & DR & RR).
      { rewrite app_length. pose proof (length_enc ps). lia. }
      exists r. split; [exact ER|]. split; [exact DR|]. intros kv ts' EQ. exists tags. split; [eapply RR; exact EQ|assumption]. }
  destruct KV as (r & ER & DR & RR). rewrite ER. destruct DR as [[[kv ts] ->]|[ex ->]]; cbn [obind].
  2:{ eexists. split; [reflexivity|]. split; [right; eauto|discriminate]. }
  eexists. split; [reflexivity|]. split; [apply def_ok|]. intros s' o [= <- _]. unfold dinv. cbn [ds_id ds_lat ds_lon ds_kv ds_uid ds_sid ds_cs ds_ts].
  rewrite X1, X2, X3, I1, I2, I3. do 3 (split; [reflexivity|]). split; [eapply RR; reflexivity|exact K2].
Qed.
Lemma def_dense k : forall e s, 0 <= e -> e + Z.of_nat k <= Z.of_nat n -> dinv e s -> def (snd (decode_dense k b d e s)).
Proof.
  induction k as [|k IH]; intros e s He HL HI; cbn [decode_dense]; [apply def_ok|].
  destruct (def_dense1 e s ltac:(lia) HI) as (r & E & DR & RR). rewrite E. destruct DR as [[[s' o] ->]|[x ->]]; [|right; eexists; reflexivity].
  specialize (IH (e + 1) s' ltac:(lia) ltac:(lia) (RR _ _ eq_refl)). destruct (decode_dense k b d (e + 1) s') as [os r]. exact IH.
Qed.
End Dense.
Lemma def_list {A} (f : A -> outcome object) (P : A -> Prop) l : (forall x, P x -> def (f x)) -> Forall P l -> def (snd (decode_list f l)).
Proof.
  intros HF. induction 1 as [|x l H HA IH]; cbn [decode_list]; [apply def_ok|].
  destruct (HF x H) as [[o ->]|[e ->]]; [|right; eexists; reflexivity]. destruct (decode_list f l) as [os r]. exact IH.
Qed.
Lemma def_group b g : group_wf b g -> def (snd (parse_group b g)).
Proof.
  intros (H1 & H2 & H3 & H4). unfold parse_group. destruct (g_dense g) as [d|].
  - pose proof (def_dense b d H1 (List.length (dn_id d)) 0 (mkDS 0 0 0 0 0 0 0 (dn_kv d)) ltac:(lia) ltac:(lia)) as X.
    destruct (decode_dense _ b d 0 _) as [os r]. apply X. unfold dinv. cbn. do 3 (split; [reflexivity|]). split.
    + destruct H1 as (_ & _ & _ & _ & _ & (tags & K1 & K2) & _). exists tags. auto.
    + destruct (dn_info d); auto.
  - destruct (g_ways g) as [|w ws] eqn:EW; [destruct (g_rels g) as [|r rs] eqn:ER; [destruct (g_nodes g) as [|y ns] eqn:EN|]|].
    + right. eexists. reflexivity.
    + pose proof (def_list (decode_node b) (node_wf b) (y :: ns) (def_node b) H2) as X. destruct (decode_list _ _). exact X.
    + pose proof (def_list (decode_relation b) (rel_wf b) (r :: rs) (def_relation b) H4) as X. destruct (decode_list _ _). exact X.
    + pose proof (def_list (decode_way b) _ (w :: ws) (def_way b) H3) as X. destruct (decode_list _ _). exact X.
Qed.
Lemma def_groups b gs : Forall (group_wf b) gs -> def (snd (parse_groups b gs)).
Proof.
  induction 1 as [|g gs H HA IH]; cbn [parse_groups]; [apply def_ok|]. pose proof (def_group b g H) as X.
  destruct (parse_group b g) as [[x|] r]; cbn [snd] in X.
  - destruct X as [[[] ->]|[e ->]]; [|right; eexists; reflexivity]. destruct (parse_groups b gs). exact IH.
  - destruct X as [[[] ->]|[e ->]]; [left|right]; eexists; reflexivity.
Qed.
Lemma def_header ty h m : def (parse_header ty h m).
Proof.
  unfold parse_header. destruct (check_features _ _); [|right; eauto]. destruct (_ && _)%bool; [right; eauto|]. destruct (_ && _)%bool; [right; eauto|]. apply def_ok.
Qed.
Lemma def_blobs K ty fin bs : fin <> UB -> (forall d b, In ("OSMData"%string, d) bs -> par_pb K d = Some b -> block_wf b) ->
  forall m, pr_end (parse_blobs K ty bs fin m) <> UB.
Proof.
  intros HF. induction bs as [|[t d] bs IH]; intros H m; cbn [parse_blobs]; [exact HF|].
  assert (IH' : forall m, pr_end (parse_blobs K ty bs fin m) <> UB) by (intros m0; apply IH; intros d0 b0 Hd; apply H; right; exact Hd).
  destruct (String.eqb_spec t "OSMData") as [->|_].
  - destruct (par_pb K d) as [b|] eqn:EB; [|discriminate]. pose proof (def_groups b (pb_groups b) (H d b (or_introl eq_refl) EB)) as X.
    destruct (parse_groups b (pb_groups b)) as [gs r]. cbn [snd] in X. destruct X as [[[] ->]|[e ->]]; [|discriminate]. apply IH'.
  - destruct (String.eqb t "OSMHeader"); [|apply IH'].
    destruct (par_hb K d) as [h|]; [|discriminate]. destruct (def_header ty h m) as [[m' ->]|[e ->]]; [apply IH'|discriminate].
Qed.
Lemma read_defined K ty f : codec_ok K -> (forall d b, In ("OSMData"%string, d) (fst (read_blobs K f)) -> par_pb K d = Some b -> block_wf b) ->
  pr_end (read_pbf K ty f) <> UB.
Proof.
  intros HK H. unfold read_pbf. destruct (read_blobs K f) as [bs e] eqn:E. cbn [fst] in H.
  destruct (read_blobs_sound K f bs e HK E) as (_ & _ & _ & _ & _ & X).
  apply def_blobs; [|exact H]. destruct X as [->|[->| ->]]; discriminate.
Qed.
Lemma example_good : block_wf ex_good /\ exists file,
  store_all protobuf false [("OSMData"%string, ser_pb protobuf ex_good)] (mkOfd [] []) = Ok (mkOfd file []) /\
  read_blobs protobuf (mkIfd file []) = ([("OSMData"%string, ser_pb protobuf ex_good)], Ok tt) /\
  map (fun g => map (fun o => o_id (obj_attrs o)) (snd g)) (pr_groups (read_pbf protobuf FtOSM (mkIfd file []))) = [[5; 6]].
Proof.
  split.
  - constructor; [|constructor]. split; [|repeat constructor]. cbn [g_dense]. unfold dense_wf. cbn [dn_id dn_lat dn_lon dn_kv dn_info List.length].
    do 2 (split; [reflexivity|]). split; [repeat constructor; vm_compute; discriminate|].
    split; [repeat constructor; vm_compute; discriminate|]. split; [repeat constructor; vm_compute; discriminate|]. split.
    + exists [[(1, 2)]; []]. split; [reflexivity|]. repeat constructor; vm_compute; (discriminate || reflexivity || idtac).
    + unfold dinfo_wf. cbn. do 5 (split; [reflexivity|]). split; [left; reflexivity|]. repeat constructor; vm_compute; (discriminate || reflexivity).
  - eexists. split; [vm_compute; reflexivity|]. split; [vm_compute; reflexivity|vm_compute; reflexivity].
Qed.
