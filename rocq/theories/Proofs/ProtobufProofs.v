(** The protobuf wire format reads back what it writes. *)
From Verif Require Import Base.Prelude Model.Osm Model.Utils Model.Attr Model.Pbf Spec.UtilsSpec Spec.TagsSpec Spec.PbfSpec Spec.Protobuf Proofs.UtilsProofs.

Lemma byte_roundtrip n : 0 <= n < 256 -> byte_val (val_byte n) = n.
Proof.
  intros H. unfold byte_val, val_byte. rewrite N_ascii_embedding.
  - rewrite Z2N.id by lia. apply Z.mod_small. lia.
  - apply N2Z.inj_lt. rewrite Z2N.id by lia. change (Z.of_N 256) with 256. lia.
Qed.
Lemma put_get_varint f : forall n r, 0 <= n < 128 ^ Z.of_nat (S f) -> get_varint (S f) (put_varint (S f) n ++ r) = Some (n, r).
Proof.
  induction f as [|f IH]; intros n r H.
  - change (128 ^ Z.of_nat 1) with 128 in H. cbn [put_varint]. destruct (n <? 128) eqn:E; [|lia]. cbn [app get_varint].
    rewrite byte_roundtrip by lia. rewrite E. reflexivity.
  - remember (S f) as f'. cbn [put_varint]. destruct (n <? 128) eqn:E; cbn [app get_varint].
    + rewrite byte_roundtrip by lia. rewrite E. reflexivity.
    + rewrite byte_roundtrip by (pose proof (Z.mod_pos_bound n 128); lia).
      destruct (n mod 128 + 128 <? 128) eqn:E2; [pose proof (Z.mod_pos_bound n 128); lia|].
      rewrite IH.
      * f_equal. f_equal. pose proof (Z.div_mod n 128). lia.
      * split; [apply Z.div_pos; lia|]. apply Z.div_lt_upper_bound; [lia|].
        rewrite Nat2Z.inj_succ, Z.pow_succ_r in H by lia. lia.
Qed.
Lemma vput_vget n r : 0 <= n < 18446744073709551616 -> vget (vput n ++ r) = Some (n, r).
Proof. intros H. apply put_get_varint. change (128 ^ Z.of_nat 10) with 1180591620717411303424. lia. Qed.
Lemma vput_cons n : exists x r, vput n = x :: r.
Proof. unfold vput. cbn [put_varint]. destruct (n <? 128); eauto. Qed.
Lemma vput_len n : blen (vput n) <= 10.
Proof.
  unfold vput. assert (G : forall f n, (List.length (put_varint f n) <= f)%nat).
  { induction f as [|f IH]; intros m; cbn; [lia|]. destruct (m <? 128); cbn; [lia|]. specialize (IH (m / 128)). lia. }
  unfold blen. specialize (G 10%nat n). lia.
Qed.
Lemma u64_range n : 0 <= u64 n < 18446744073709551616.
Proof. apply Z.mod_pos_bound. lia. Qed.
Lemma u64_i64 n : in_i64 n -> i64_of (u64 n) = n.
Proof.
  unfold in_i64, int64_min, int64_max. intros H. unfold u64, i64_of.
  destruct (_ <? _) eqn:E.
  - destruct (Z_lt_ge_dec n 0) as [L|L]; [|apply Z.mod_small; lia].
    rewrite <- (Z.mod_add n 1) in E by lia. rewrite Z.mod_small in E by lia. lia.
  - destruct (Z_lt_ge_dec n 0) as [L|L]; [|rewrite Z.mod_small in E; lia].
    rewrite <- (Z.mod_add n 1) by lia. rewrite Z.mod_small by lia. lia.
Qed.
Lemma u64_i32 n : in_i32 n -> to_i32 (u64 n) = n.
Proof. unfold in_i32, int32_min, int32_max, to_i32, u64. lia. Qed.
Lemma u64_u32 n : in_u32 n -> to_u32 (u64 n) = n.
Proof. unfold in_u32, to_u32, u64. lia. Qed.
Lemma u64_id n : 0 <= n <= 2 -> u64 n = n.
Proof. intros H. apply Z.mod_small. lia. Qed.
Lemma zigzag_range n : in_i64 n -> 0 <= zigzag n < 18446744073709551616.
Proof. unfold in_i64, int64_min, int64_max, zigzag. destruct (n <? 0) eqn:E; lia. Qed.
Lemma unzigzag_zigzag n : unzigzag (zigzag n) = n.
Proof.
  unfold zigzag, unzigzag. destruct (n <? 0) eqn:E.
  - replace (-2 * n - 1) with (1 + 2 * (- n - 1)) by lia. rewrite Z.even_add_mul_2. cbn [Z.even].
    replace (1 + 2 * (- n - 1) + 1) with (- n * 2) by lia. rewrite Z.div_mul by lia. lia.
  - rewrite (Z.even_mul 2 n). cbn [Z.even orb]. rewrite Z.mul_comm, Z.div_mul by lia. reflexivity.
Qed.
Lemma i32_i64 n : in_i32 n -> in_i64 n.
Proof. unfold in_i32, in_i64, int32_min, int32_max, int64_min, int64_max. lia. Qed.
Lemma bit_range b : 0 <= bit b < 18446744073709551616.
Proof. destruct b; cbn; lia. Qed.

(* ---- fields ---- *)
Definition big : Z := 33554432.
Definition fld_ok (f : field) : Prop :=
  0 <= fst f <= 1000 /\ match snd f with FVar n => 0 <= n < 18446744073709551616 | FLen b => blen b <= big end.
Lemma get_put_field f r : fld_ok f -> get_field (put_field f ++ r) = Some (f, r).
Proof.
  intros [H1 H2]. destruct f as [k [n|b]]; cbn [fst snd] in *; unfold get_field, put_field; cbn [fst snd]; rewrite <- ?app_assoc.
  - rewrite vput_vget by lia. rewrite vput_vget by lia. rewrite Z.mod_mul, Z.div_mul by lia. reflexivity.
  - unfold big in H2. assert (H3 : 0 <= blen b) by (unfold blen; lia).
    rewrite vput_vget by lia. rewrite vput_vget by lia.
    rewrite Z.add_comm, Z.mod_add, Z.div_add by lia. change (2 mod 8) with 2. change (2 / 8) with 0. cbn [Z.eqb].
    assert (E : blen (b ++ r) = blen b + blen r) by (unfold blen; rewrite app_length; lia).
    destruct (_ <=? _) eqn:EL; [|unfold blen in *; lia].
    unfold blen. rewrite Nat2Z.id, firstn_app, firstn_all, Nat.sub_diag. cbn [firstn].
    rewrite skipn_app, skipn_all, Nat.sub_diag. cbn [skipn app]. rewrite app_nil_r. reflexivity.
Qed.
Lemma put_field_cons f : exists x r, put_field f = x :: r.
Proof.
  unfold put_field. destruct (snd f); [destruct (vput_cons (fst f * 8)) as (x & r & ->)|destruct (vput_cons (fst f * 8 + 2)) as (x & r & ->)]; cbn; eauto.
Qed.
Lemma get_fields_ok l : Forall fld_ok l -> forall fuel, (List.length (put_msg l) <= fuel)%nat -> get_fields fuel (put_msg l) = Some l.
Proof.
  induction 1 as [|f l Hf _ IH]; intros fuel HL; [destruct fuel; reflexivity|]. cbn [put_msg flat_map] in *. fold (put_msg l) in *.
  destruct (put_field_cons f) as (x & r & E). rewrite app_length in HL. assert (1 <= List.length (put_field f))%nat by (rewrite E; cbn; lia).
  destruct fuel as [|fuel]; [lia|]. cbn [get_fields]. replace (put_field f ++ put_msg l) with (x :: r ++ put_msg l) by (rewrite E; reflexivity).
  cbv iota beta. replace (x :: r ++ put_msg l) with (put_field f ++ put_msg l) by (rewrite E; reflexivity).
  rewrite get_put_field by exact Hf. rewrite IH by lia. reflexivity.
Qed.
Lemma get_put_msg l : Forall fld_ok l -> get_msg (put_msg l) = Some l.
Proof. intros H. apply get_fields_ok; [exact H|lia]. Qed.
Lemma blen_app a b : blen (a ++ b) = blen a + blen b.
Proof. unfold blen. rewrite app_length. lia. Qed.
Lemma blen_nonneg b : 0 <= blen b.
Proof. unfold blen. lia. Qed.
Lemma put_msg_app a b : put_msg (a ++ b) = put_msg a ++ put_msg b.
Proof. apply flat_map_app. Qed.
Lemma sub_len k b l : In (k, FLen b) l -> blen b <= blen (put_msg l).
Proof.
  induction l as [|f l IH]; intros H; [destruct H|]; destruct H as [->|H]; cbn [put_msg flat_map]; fold (put_msg l); rewrite blen_app.
  - unfold put_field. cbn [snd fst]. rewrite !blen_app. pose proof (blen_nonneg (vput (k * 8 + 2))). pose proof (blen_nonneg (vput (blen b))).
    pose proof (blen_nonneg (put_msg l)). lia.
  - specialize (IH H). pose proof (blen_nonneg (put_field f)). lia.
Qed.
(** a field number and a number in range; lengths come from the whole message *)
Definition num_ok (f : field) : Prop :=
  0 <= fst f <= 1000 /\ match snd f with FVar n => 0 <= n < 18446744073709551616 | FLen _ => True end.
Lemma msg_parse l : Forall num_ok l -> blen (put_msg l) <= big -> get_msg (put_msg l) = Some l.
Proof.
  intros H HL. apply get_put_msg. apply Forall_forall. intros [k v] Hf. rewrite Forall_forall in H. destruct (H _ Hf) as [H1 H2].
  split; [exact H1|]. cbn [snd] in *. destruct v; [exact H2|]. apply sub_len in Hf. lia.
Qed.

(* ---- finding fields ---- *)
Lemma all_of_app k a b : all_of k (a ++ b) = all_of k a ++ all_of k b.
Proof. unfold all_of. rewrite filter_app, map_app. reflexivity. Qed.
Lemma all_of_opt {A} k j put (x : option A) : all_of k (opt j put x) = if j =? k then match x with Some a => [put a] | None => [] end else [].
Proof. unfold all_of, opt. destruct x; cbn; [|destruct (j =? k); reflexivity]. destruct (j =? k); reflexivity. Qed.
Lemma all_of_packed k j enc l : all_of k (packed j enc l) = if j =? k then match l with [] => [] | _ => [FLen (flat_map (fun n => vput (enc n)) l)] end else [].
Proof. unfold all_of, packed. destruct l; cbn; [destruct (j =? k); reflexivity|]. destruct (j =? k); reflexivity. Qed.
Lemma all_of_map {A} k j (f : A -> fval) l : all_of k (map (fun a => (j, f a)) l) = if j =? k then map f l else [].
Proof.
  unfold all_of. destruct (j =? k) eqn:E; induction l as [|a l IH]; cbn; rewrite ?E; cbn; try reflexivity; [f_equal; exact IH|exact IH].
Qed.
Lemma all_of_cons k j v l : all_of k ((j, v) :: l) = if j =? k then v :: all_of k l else all_of k l.
Proof. unfold all_of. cbn. destruct (j =? k); reflexivity. Qed.
Lemma all_of_nil k : all_of k [] = [].
Proof. reflexivity. Qed.

Lemma get_varints_ok ns : Forall (fun n => 0 <= n < 18446744073709551616) ns -> forall fuel,
  (List.length (flat_map vput ns) <= fuel)%nat -> get_varints fuel (flat_map vput ns) = Some ns.
Proof.
  induction 1 as [|n ns Hn _ IH]; intros fuel HL; [destruct fuel; reflexivity|]. cbn [flat_map] in *.
  destruct (vput_cons n) as (x & r & E). rewrite app_length in HL. assert (1 <= List.length (vput n))%nat by (rewrite E; cbn; lia).
  destruct fuel as [|fuel]; [lia|]. cbn [get_varints]. replace (vput n ++ flat_map vput ns) with (x :: r ++ flat_map vput ns) by (rewrite E; reflexivity).
  cbv iota beta. replace (x :: r ++ flat_map vput ns) with (vput n ++ flat_map vput ns) by (rewrite E; reflexivity).
  rewrite vput_vget by exact Hn. rewrite IH by lia. reflexivity.
Qed.
Lemma flat_map_enc (enc : Z -> Z) (l : list Z) : flat_map (fun n => vput (enc n)) l = flat_map vput (map enc l).
Proof. induction l as [|x l IH]; cbn [flat_map map]; [reflexivity|]. rewrite IH. reflexivity. Qed.
Lemma get_packed_ok (enc : Z -> Z) l : Forall (fun n => 0 <= enc n < 18446744073709551616) l ->
  get_packed (flat_map (fun n => vput (enc n)) l) = Some (map enc l).
Proof. intros H. rewrite flat_map_enc. apply get_varints_ok; [apply Forall_map; exact H|lia]. Qed.
Lemma nums_packed k l (enc : Z -> Z) ns : all_of k l = match ns with [] => [] | _ => [FLen (flat_map (fun n => vput (enc n)) ns)] end ->
  Forall (fun n => 0 <= enc n < 18446744073709551616) ns -> nums k l = Some (map enc ns).
Proof.
  intros E H. unfold nums. rewrite E. destruct ns as [|n ns]; [reflexivity|]. cbn [map all_some].
  rewrite get_packed_ok by exact H. cbn. rewrite app_nil_r. reflexivity.
Qed.
Lemma dec_enc (P : Z -> Prop) (enc dec : Z -> Z) l : (forall n, P n -> dec (enc n) = n) -> Forall P l -> map dec (map enc l) = l.
Proof. intros H. induction 1 as [|n l Hn _ IH]; cbn; [reflexivity|]. rewrite H, IH by exact Hn. reflexivity. Qed.
Lemma all_some_ok {A B} (get : B -> option A) (put : A -> B) (P : A -> Prop) l : (forall a, P a -> get (put a) = Some a) -> Forall P l ->
  all_some (map get (map put l)) = Some l.
Proof. intros H. induction 1 as [|a l Ha _ IH]; cbn; [reflexivity|]. rewrite (H a Ha), IH. reflexivity. Qed.
Lemma subs_ok {A} (get : bytes -> option A) (put : A -> bytes) (P : A -> Prop) k l xs :
  all_of k l = map (fun a => FLen (put a)) xs -> (forall a, P a -> get (put a) = Some a) -> Forall P xs -> subs get k l = Some xs.
Proof.
  intros E H HA. unfold subs, lens. rewrite E.
  replace (flat_map _ (map (fun a => FLen (put a)) xs)) with (map put xs); [eapply all_some_ok; eassumption|].
  clear. induction xs as [|x xs IH]; cbn; [reflexivity|]. rewrite IH. reflexivity.
Qed.
Lemma lens_ok {A} (put : A -> bytes) k l xs : all_of k l = map (fun a => FLen (put a)) xs -> lens k l = map put xs.
Proof. intros E. unfold lens. rewrite E. clear. induction xs as [|x xs IH]; cbn; [reflexivity|]. rewrite IH. reflexivity. Qed.
Lemma sub_ok {A} (get : bytes -> option A) (put : A -> bytes) k l (x : option A) :
  all_of k l = match x with Some a => [FLen (put a)] | None => [] end -> (forall a, x = Some a -> get (put a) = Some a) -> sub get k l = Some x.
Proof. intros E H. unfold sub, last_len. rewrite E. destruct x; cbn; [rewrite (H a eq_refl)|]; reflexivity. Qed.
Lemma last_len_ok {A} (put : A -> bytes) k l (x : option A) :
  all_of k l = match x with Some a => [FLen (put a)] | None => [] end -> last_len k l = omap put x.
Proof. intros E. unfold last_len. rewrite E. destruct x; reflexivity. Qed.
Lemma last_var_ok {A} (put : A -> Z) k l (x : option A) :
  all_of k l = match x with Some a => [FVar (put a)] | None => [] end -> last_var k l = omap put x.
Proof. intros E. unfold last_var. rewrite E. destruct x; reflexivity. Qed.
Lemma last_var_one k l n : all_of k l = [FVar n] -> last_var k l = Some n.
Proof. intros E. unfold last_var. rewrite E. reflexivity. Qed.
Lemma last_len_one k l n : all_of k l = [FLen n] -> last_len k l = Some n.
Proof. intros E. unfold last_len. rewrite E. reflexivity. Qed.
Lemma str_of s : string_of_list_ascii (str s) = s.
Proof. apply string_of_list_ascii_of_string. Qed.

(** find the fields of a message built from pieces *)
Ltac fields :=
  unfold common_fields;
  repeat first [rewrite all_of_app | rewrite all_of_opt | rewrite all_of_packed | rewrite all_of_map | rewrite all_of_cons | rewrite all_of_nil];
  cbn [Z.eqb Pos.eqb app]; rewrite ?app_nil_r; cbn [app].
Lemma num_ok_opt_len {A} k (put : A -> bytes) x : 0 <= k <= 1000 -> Forall num_ok (opt k (fun a => FLen (put a)) x).
Proof. intros H. destruct x; cbn; [constructor; [split; [exact H|exact I]|]|]; constructor. Qed.
Lemma num_ok_packed k enc l : 0 <= k <= 1000 -> Forall num_ok (packed k enc l).
Proof. intros H. unfold packed. destruct l; [constructor|]. constructor; [split; [exact H|exact I]|constructor]. Qed.
Lemma num_ok_map {A} k (put : A -> bytes) l : 0 <= k <= 1000 -> Forall num_ok (map (fun a => (k, FLen (put a))) l).
Proof. intros H. apply Forall_map, Forall_forall. intros x _. split; [exact H|exact I]. Qed.
Lemma num_ok_var k n l : 0 <= k <= 1000 -> 0 <= n < 18446744073709551616 -> Forall num_ok l -> Forall num_ok ((k, FVar n) :: l).
Proof. intros H1 H2 H3. constructor; [split; assumption|exact H3]. Qed.
Lemma num_ok_len k b l : 0 <= k <= 1000 -> Forall num_ok l -> Forall num_ok ((k, FLen b) :: l).
Proof. intros H1 H3. constructor; [split; [assumption|exact I]|exact H3]. Qed.
Lemma num_ok_app a b : Forall num_ok a -> Forall num_ok b -> Forall num_ok (a ++ b).
Proof. intros. apply Forall_app; auto. Qed.
Ltac oks := repeat first [apply num_ok_app | apply num_ok_packed; lia | apply num_ok_opt_len; lia | apply num_ok_map; lia
  | apply num_ok_len; [lia|] | apply num_ok_var; [lia| |] | apply Forall_nil].

(* ---- messages ---- *)
Lemma bh_ok t n : in_i32 n -> blen (put_bh (mkBH t n)) <= 65536 -> get_bh (put_bh (mkBH t n)) = Some (mkBH t n).
Proof.
  intros H HL. unfold get_bh. unfold put_bh in *. cbn [bh_type bh_datasize] in *.
  rewrite msg_parse; [|oks; apply u64_range|unfold big; lia].
  rewrite (last_len_one _ _ (str t)) by (fields; reflexivity). rewrite (last_var_one _ _ (u64 n)) by (fields; reflexivity).
  rewrite str_of, u64_i32 by exact H. reflexivity.
Qed.
Lemma str_len s : blen (str s) = slen s.
Proof. unfold blen, str, slen. f_equal. induction s; cbn; [reflexivity|]. f_equal. exact IHs. Qed.
Lemma bh_small t n : slen t <= 1000 -> blen (put_bh (mkBH t n)) <= 65536.
Proof.
  intros H. unfold put_bh, put_msg, put_field. cbn [flat_map fst snd bh_type bh_datasize]. rewrite !blen_app, str_len.
  pose proof (vput_len (1 * 8 + 2)). pose proof (vput_len (slen t)). pose proof (vput_len (3 * 8)). pose proof (vput_len (u64 n)).
  change (blen []) with 0. lia.
Qed.
Lemma blob_ok b : in_i32 (b_raw_size b) -> blen (put_blob b) <= limit -> get_blob (put_blob b) = Some b.
Proof.
  intros H HL. unfold get_blob. unfold put_blob in *.
  rewrite msg_parse; [| |exact HL].
  - rewrite (last_len_ok (fun x => x) _ _ (b_raw b)) by (fields; reflexivity).
    rewrite (last_len_ok (fun x => x) _ _ (b_zlib b)) by (fields; reflexivity).
    rewrite (last_len_ok (fun x => x) _ _ (b_lzma b)) by (fields; reflexivity).
    rewrite (last_var_one _ _ (u64 (b_raw_size b))) by (fields; reflexivity).
    cbn [dflt]. rewrite u64_i32 by exact H. destruct b as [[r|] n [z|] [y|]]; reflexivity.
  - oks; try apply u64_range; destruct (b_raw b), (b_zlib b), (b_lzma b); cbn [opt]; oks; apply u64_range.
Qed.
Lemma bbox_ok b : in_i64 (bb_left b) -> in_i64 (bb_right b) -> in_i64 (bb_top b) -> in_i64 (bb_bottom b) -> blen (put_bbox b) <= limit ->
  get_bbox (put_bbox b) = Some b.
Proof.
  intros H1 H2 H3 H4 HL. unfold get_bbox. unfold put_bbox in *. rewrite msg_parse; [|oks; apply zigzag_range; assumption|exact HL].
  do 4 (erewrite last_var_one by (fields; reflexivity)). rewrite !unzigzag_zigzag. destruct b; reflexivity.
Qed.
Lemma sub_limit k b l : In (k, FLen b) l -> blen (put_msg l) <= limit -> blen b <= limit.
Proof. intros H HL. apply sub_len in H. lia. Qed.
Lemma hb_ok h : header_fits h -> blen (put_hb h) <= limit -> get_hb (put_hb h) = Some h.
Proof.
  intros H HL. unfold get_hb. unfold put_hb in *. rewrite msg_parse; [|oks|exact HL].
  rewrite (sub_ok get_bbox put_bbox _ _ (hb_bbox h)); [|fields; reflexivity|].
  - rewrite (lens_ok str _ _ (hb_features h)) by (fields; reflexivity).
    rewrite (last_len_ok str _ _ (hb_program h)) by (fields; reflexivity).
    rewrite map_map. rewrite (map_ext _ (fun s => s)) by apply str_of. rewrite map_id.
    destruct h as [bb fs [p|]]; cbn; rewrite ?str_of; reflexivity.
  - intros b Eb. unfold header_fits in H. rewrite Eb in H. apply bbox_ok; try apply H.
    eapply (sub_limit 1); [|exact HL]. rewrite Eb. left. reflexivity.
Qed.
Lemma info_ok i : info_fits i -> blen (put_info i) <= limit -> get_info (put_info i) = Some i.
Proof.
  intros (H1 & H2 & H3 & H4 & H5) HL. unfold get_info. unfold put_info in *. rewrite msg_parse; [| |exact HL].
  - do 5 (erewrite last_var_one by (fields; reflexivity)). rewrite (last_var_ok bit _ _ (i_visible i)) by (fields; reflexivity).
    cbn [dflt]. rewrite !u64_i32, !u64_i64 by assumption. replace (to_u32 (i_user_sid i)) with (i_user_sid i).
    + destruct i as [a1 a2 a3 a4 a5 [[]|]]; reflexivity.
    + unfold in_u32 in H5. unfold to_u32. lia.
  - oks; try apply u64_range; [unfold in_u32 in H5; lia|]. destruct (i_visible i); cbn [opt]; oks. apply bit_range.
Qed.
Lemma common_ok c enc dec rest : common_fits c -> (forall n, in_i64 n -> dec (enc n) = n) ->
  (forall k, 1 <= k <= 4 -> all_of k rest = []) -> blen (put_msg (common_fields enc c ++ rest)) <= limit ->
  get_common dec (common_fields enc c ++ rest) = Some c.
Proof.
  intros (H1 & H2 & H3 & H4) HD HR HL. unfold get_common.
  rewrite (last_var_one _ _ (enc (c_id c))) by (fields; rewrite HR by lia; reflexivity).
  rewrite (nums_packed _ _ u64 (c_keys c)); [|fields; rewrite HR by lia; apply app_nil_r|apply Forall_forall; intros; apply u64_range].
  rewrite (nums_packed _ _ u64 (c_vals c)); [|fields; rewrite HR by lia; apply app_nil_r|apply Forall_forall; intros; apply u64_range].
  rewrite (sub_ok get_info put_info _ _ (c_info c)); [|fields; rewrite HR by lia; apply app_nil_r|].
  - rewrite HD by exact H1. rewrite (dec_enc in_u32 u64 to_u32 _ u64_u32 H2), (dec_enc in_u32 u64 to_u32 _ u64_u32 H3). destruct c; reflexivity.
  - intros i Ei. rewrite Ei in H4. apply info_ok; [exact H4|]. eapply (sub_limit 4); [|exact HL]. apply in_or_app. left.
    unfold common_fields. rewrite Ei. rewrite !in_app_iff. right. right. right. left. reflexivity.
Qed.
Lemma common_nums c enc : (0 <= enc (c_id c) < 18446744073709551616) -> Forall num_ok (common_fields enc c).
Proof. intros H. unfold common_fields. oks. exact H. Qed.
Ltac zz := apply Forall_forall; intros ? HIN; apply zigzag_range;
  match goal with H : Forall _ ?l, HIN : In _ ?l |- _ => rewrite Forall_forall in H; specialize (H _ HIN); first [exact H | apply i32_i64; exact H] end.
Ltac u6 := apply Forall_forall; intros; apply u64_range.
Ltac nokey := intros k Hk; rewrite ?all_of_app, ?all_of_packed, ?all_of_cons, ?all_of_nil;
  repeat match goal with |- context [?j =? k] => replace (j =? k) with false by lia end; reflexivity.
Lemma node_ok p : pnode_fits p -> blen (put_node p) <= limit -> get_node (put_node p) = Some p.
Proof.
  intros (HC & H1 & H2) HL. unfold get_node. unfold put_node in *. rewrite msg_parse; [| |exact HL].
  - rewrite (common_ok _ zigzag unzigzag); auto using unzigzag_zigzag.
    + rewrite (last_var_one 8 _ (zigzag (pn_lat p))) by (fields; reflexivity).
      rewrite (last_var_one 9 _ (zigzag (pn_lon p))) by (fields; reflexivity). rewrite !unzigzag_zigzag. destruct p; reflexivity.
    + nokey.
  - apply num_ok_app; [apply common_nums, zigzag_range, HC|]. oks; apply zigzag_range; assumption.
Qed.
Lemma way_ok p : pway_fits p -> blen (put_way p) <= limit -> get_way (put_way p) = Some p.
Proof.
  intros (HC & H1) HL. unfold get_way. unfold put_way in *. rewrite msg_parse; [| |exact HL].
  - rewrite (common_ok _ u64 i64_of); auto using u64_i64.
    + rewrite (nums_packed 8 _ zigzag (pw_refs p)); [|fields; reflexivity|zz].
      rewrite (dec_enc in_i64) by auto using unzigzag_zigzag. destruct p; reflexivity.
    + nokey.
  - apply num_ok_app; [apply common_nums, u64_range|]. oks.
Qed.
Lemma rel_ok p : prel_fits p -> blen (put_rel p) <= limit -> get_rel (put_rel p) = Some p.
Proof.
  intros (HC & H1 & H2 & H3) HL. unfold get_rel. unfold put_rel in *. rewrite msg_parse; [| |exact HL].
  - rewrite (common_ok _ u64 i64_of); auto using u64_i64.
    + rewrite (nums_packed 8 _ u64 (pr_roles p)); [|fields; reflexivity|u6].
      rewrite (nums_packed 9 _ zigzag (pr_memids p)); [|fields; reflexivity|zz].
      rewrite (nums_packed 10 _ u64 (pr_types p)); [|fields; reflexivity|u6].
      rewrite (dec_enc in_i32) by auto using u64_i32. rewrite (dec_enc in_i64) by auto using unzigzag_zigzag.
      rewrite <- (map_id (map u64 (pr_types p))), (dec_enc (fun t => 0 <= t <= 2)) by auto using u64_id. destruct p; reflexivity.
    + nokey.
  - apply num_ok_app; [apply common_nums, u64_range|]. oks.
Qed.
Lemma bits_back l : map (fun n => negb (n =? 0)) (map (fun n : Z => n) (map bit l)) = l.
Proof. induction l as [|[] l IH]; cbn; [reflexivity| |]; f_equal; exact IH. Qed.
Lemma dinfo_ok i : dinfo_fits i -> blen (put_dinfo i) <= limit -> get_dinfo (put_dinfo i) = Some i.
Proof.
  intros (H1 & H2 & H3 & H4 & H5) HL. unfold get_dinfo. unfold put_dinfo in *. rewrite msg_parse; [|oks|exact HL].
  rewrite (nums_packed 1 _ u64 (di_version i)); [|fields; reflexivity|u6].
  rewrite (nums_packed 2 _ zigzag (di_timestamp i)); [|fields; reflexivity|zz].
  rewrite (nums_packed 3 _ zigzag (di_changeset i)); [|fields; reflexivity|zz].
  rewrite (nums_packed 4 _ zigzag (di_uid i)); [|fields; reflexivity|zz].
  rewrite (nums_packed 5 _ zigzag (di_user_sid i)); [|fields; reflexivity|zz].
  rewrite (nums_packed 6 _ (fun n => n) (map bit (di_visible i))); [|fields; reflexivity|apply Forall_map, Forall_forall; intros; apply bit_range].
  rewrite bits_back, (dec_enc in_i32 u64) by auto using u64_i32.
  rewrite !(dec_enc in_i64 zigzag) by (auto using unzigzag_zigzag). rewrite !(dec_enc in_i32 zigzag) by (auto using unzigzag_zigzag).
  destruct i; reflexivity.
Qed.
Lemma dense_ok d : dense_fits d -> blen (put_dense d) <= limit -> get_dense (put_dense d) = Some d.
Proof.
  intros (H1 & H2 & H3 & H4 & H5) HL. unfold get_dense. unfold put_dense in *. rewrite msg_parse; [|oks|exact HL].
  rewrite (nums_packed 1 _ zigzag (dn_id d)); [|fields; reflexivity|zz].
  rewrite (sub_ok get_dinfo put_dinfo 5 _ (dn_info d)); [|fields; reflexivity|].
  - rewrite (nums_packed 8 _ zigzag (dn_lat d)); [|fields; reflexivity|zz].
    rewrite (nums_packed 9 _ zigzag (dn_lon d)); [|fields; reflexivity|zz].
    rewrite (nums_packed 10 _ u64 (dn_kv d)); [|fields; reflexivity|u6].
    rewrite !(dec_enc in_i64 zigzag) by auto using unzigzag_zigzag. rewrite (dec_enc in_i32 u64) by auto using u64_i32. destruct d; reflexivity.
  - intros i Ei. rewrite Ei in H5. apply dinfo_ok; [exact H5|]. eapply (sub_limit 5); [|exact HL]. rewrite Ei.
    rewrite !in_app_iff. right. left. left. reflexivity.
Qed.
Lemma Forall_both {A} (P Q : A -> Prop) l : Forall P l -> (forall a, In a l -> Q a) -> Forall (fun a => P a /\ Q a) l.
Proof. intros H1 H2. rewrite Forall_forall in *. auto. Qed.
Lemma group_ok g : group_fits g -> blen (put_group g) <= limit -> get_group (put_group g) = Some g.
Proof.
  intros (H1 & H2 & H3 & H4) HL. unfold get_group. unfold put_group in *. rewrite msg_parse; [|oks|exact HL].
  rewrite (subs_ok get_node put_node (fun p => pnode_fits p /\ blen (put_node p) <= limit) 1 _ (g_nodes g)); [|fields; reflexivity|intros a []; apply node_ok; assumption|].
  2:{ apply Forall_both; [exact H1|]. intros a Ha. eapply (sub_limit 1); [|exact HL]. rewrite in_app_iff. left. apply in_map_iff. eauto. }
  rewrite (sub_ok get_dense put_dense 2 _ (g_dense g)); [|fields; reflexivity|].
  2:{ intros d Ed. rewrite Ed in H4. apply dense_ok; [exact H4|]. eapply (sub_limit 2); [|exact HL]. rewrite Ed. rewrite !in_app_iff. right; left; left; reflexivity. }
  rewrite (subs_ok get_way put_way (fun p => pway_fits p /\ blen (put_way p) <= limit) 3 _ (g_ways g)); [|fields; reflexivity|intros a []; apply way_ok; assumption|].
  2:{ apply Forall_both; [exact H2|]. intros a Ha. eapply (sub_limit 3); [|exact HL]. rewrite !in_app_iff. right; right; left. apply in_map_iff. eauto. }
  rewrite (subs_ok get_rel put_rel (fun p => prel_fits p /\ blen (put_rel p) <= limit) 4 _ (g_rels g)); [|fields; reflexivity|intros a []; apply rel_ok; assumption|].
  2:{ apply Forall_both; [exact H3|]. intros a Ha. eapply (sub_limit 4); [|exact HL]. rewrite !in_app_iff. right; right; right. apply in_map_iff. eauto. }
  destruct g; reflexivity.
Qed.
Lemma strings_ok l : blen (put_strings l) <= limit -> get_strings (put_strings l) = Some l.
Proof.
  intros HL. unfold get_strings. unfold put_strings in *. rewrite msg_parse; [|oks|exact HL].
  rewrite (lens_ok str _ _ l) by (fields; reflexivity). rewrite map_map, (map_ext _ (fun s => s)) by apply str_of. rewrite map_id. reflexivity.
Qed.
Lemma pb_ok b : block_fits b -> blen (put_pb b) <= limit -> get_pb (put_pb b) = Some b.
Proof.
  intros (H1 & H2 & H3 & H4 & H5) HL. unfold get_pb. unfold put_pb in *. rewrite msg_parse; [|oks; apply u64_range|exact HL].
  rewrite (last_len_one 1 _ (put_strings (pb_strings b))) by (fields; reflexivity).
  rewrite strings_ok by (eapply (sub_limit 1); [|exact HL]; left; reflexivity).
  rewrite (subs_ok get_group put_group (fun p => group_fits p /\ blen (put_group p) <= limit) 2 _ (pb_groups b)); [|fields; reflexivity|intros a []; apply group_ok; assumption|].
  2:{ apply Forall_both; [exact H1|]. intros a Ha. eapply (sub_limit 2); [|exact HL]. rewrite !in_app_iff. right; left. apply in_map_iff. eauto. }
  do 4 (erewrite last_var_one by (fields; reflexivity)). cbn [dflt]. rewrite !u64_i32, !u64_i64 by assumption. destruct b; reflexivity.
Qed.
Lemma get_blob_raw d b : get_blob d = Some b -> in_i32 (b_raw_size b).
Proof. unfold get_blob. destruct (get_msg d); [|discriminate]. intros [= <-]. apply to_i32_range. Qed.

Lemma protobuf_ok : codec_ok protobuf.
Proof.
  constructor; cbn.
  - exact bh_ok.
  - intros t n H _. apply bh_small. exact H.
  - exact blob_ok.
  - exact get_blob_raw.
  - exact hb_ok.
  - exact pb_ok.
  - intros d n H. destruct (blen d <=? n) eqn:E; [reflexivity|lia].
  - exact insertion_by_count_ok.
Qed.
