(** When writing a PBF file succeeds. *)
From Verif Require Import Base.Prelude Base.SMap Model.Osm Model.Float Model.Utils Model.Attr Model.OsmFile Model.Handler Model.Pbf
  Spec.UtilsSpec Spec.TagsSpec Spec.HandlerSpec Spec.PbfSpec Proofs.UtilsProofs Proofs.PbfFrameProofs Proofs.PbfStringProofs Proofs.PbfDecodeProofs
  Proofs.PbfWriteProofs Proofs.PbfBlockProofs Proofs.PbfProofs.

Lemma last_bounded {A} (P : Z -> Prop) (f : A -> Z) l : P 0 -> Forall (fun x => P (f x)) l -> P (last (map f l) 0).
Proof.
  intros H0. induction 1 as [|x l Hx HA IH]; [exact H0|]. destruct l as [|y l]; [exact Hx|]. exact IH.
Qed.
Lemma delta_mid m v : mid m -> mid v -> delta_update I64 m v = Ok (v, v - m).
Proof. unfold mid. intros H1 H2. apply delta_i64_ok. unfold in_i64, int64_min, int64_max. lia. Qed.
Lemma encode_refs_succ l : forall m, mid m -> Forall mid l -> exists xs, encode_refs m l = Ok xs.
Proof.
  induction l as [|x l IH]; intros m Hm HA; [eexists; reflexivity|]. inversion HA as [|? ? H1 H2]; subst. cbn [encode_refs].
  rewrite delta_mid by assumption. cbn [obind]. destruct (IH x H1 H2) as (xs & ->). eexists; reflexivity.
Qed.
Lemma encode_members_succ ms : forall m t, mid m -> Forall (fun m => mid (m_ref m)) ms ->
  Forall (fun m => m_type m = "n"%char \/ m_type m = "w"%char \/ m_type m = "r"%char) ms ->
  exists t2 ks ds ys, encode_members m ms t = Ok (t2, ks, ds, ys, None).
Proof.
  induction ms as [|x ms IH]; intros m t Hm HA HB; [do 4 eexists; reflexivity|]. inversion HA as [|? ? H1 H2]; inversion HB as [|? ? H3 H4]; subst.
  cbn [encode_members]. destruct (record_string (m_role x) t) as [t1 k]. rewrite delta_mid by assumption. cbn [obind].
  assert (exists y, member_code (m_type x) = Some y) as (y & ->) by (unfold member_code; destruct H3 as [->|[->| ->]]; cbn; eauto).
  destruct (IH (m_ref x) t1 H1 H2 H4) as (t2 & ks & ds & ys & ->). cbn [obind]. do 4 eexists; reflexivity.
Qed.

Lemma mid_i64 x : mid x -> in_i64 x.
Proof. unfold mid, in_i64, int64_min, int64_max. lia. Qed.

Section Succ.
Variables (K : codec) (c : pcfg) (ec et fc ft : Z -> Z) (T : Z -> Prop).
Hypothesis HK : codec_ok K.
Hypothesis WC : forall x, in_i32 x -> lonlat2int (cf_gran c) (fix_to_double x) = Ok (ec x).
Hypothesis WT : forall t, T t -> timestamp2int (cf_dgran c) t = Ok (et t).
Hypothesis HC : forall x, in_i32 x -> exists y, decode_coord (ec x) (to_i32 (cf_gran c)) 0 = Ok y /\ to_i32 y = fc x.
Hypothesis HT : forall t, T t -> i64 (et t * Z.quot (to_i32 (cf_dgran c)) 1000) = Ok (ft t).
Hypothesis BE : forall x, in_i32 x -> mid (ec x).
Hypothesis BT : forall t, T t -> mid (et t).
Notation winv := (winv c ec et).
Notation obj_fine := (obj_fine T).
Notation run := (run K c ec et fc ft T).
Let HE : forall x, in_i32 x -> in_i64 (ec x) := fun x H => mid_i64 _ (BE x H).
Let HF : forall t, T t -> in_i64 (et t) := fun t H => mid_i64 _ (BT t H).

(** compressed it does not fit into a blob *)
Definition too_big (l : list object) : Prop := exists b, good_block c ec et fc ft l b /\ limit < blen (zdeflate K (ser_pb K b)).
Definition too_big_piece (os : list object) : Prop :=
  exists a l b, os = a ++ l ++ b /\ Z.of_nat (List.length l) <= 8000 /\ too_big l.
Lemma store_one t d f : writes_complete (fd_sched f) ->
  (exists f', store_blob K (cf_compress c) t d f = Ok f') \/
  (cf_compress c = true /\ store_blob K (cf_compress c) t d f = Throw ERuntime /\ limit < blen (zdeflate K d)).
Proof.
  intros HW. destruct (store_blob_complete K (cf_compress c) t d f HW) as (s' & _ & ->). unfold blob_message, zlib_compress.
  destruct (cf_compress c); [destruct (Z.gtb_spec (blen (zdeflate K d)) max_uncompressed_blob_size)|]; cbn [obind]; eauto.
Qed.
Lemma run_sched s0 h chunks ps l w : writes_complete s0 -> run s0 h chunks ps l w -> writes_complete (fd_sched (w_fd w)).
Proof.
  intros HW RN. destruct (store_all_frames K _ _ (mkOfd [] s0) _ HW (rn_file _ _ _ _ _ _ _ _ _ _ _ _ _ RN)) as (ms & _ & H & _). exact H.
Qed.
Lemma flush_succ s0 h chunks ps l w : writes_complete s0 -> run s0 h chunks ps l w ->
  (exists w', store_primitive_block K c w = Ok w') \/ (cf_compress c = true /\ store_primitive_block K c w = Throw ERuntime /\ too_big l).
Proof.
  intros HW RN. pose proof (run_sched _ _ _ _ _ _ HW RN) as HW'. destruct RN as [I1 I2 I3 I4 I5 I6]. unfold store_primitive_block.
  destruct (final_block_good K c ec et fc ft T HK HC HT HE HF l w I1 I3 I2 I4) as (b & EB & GB). rewrite EB. cbn [obind].
  destruct (store_one "OSMData" (ser_pb K b) (w_fd w) HW') as [(f' & ->)|(H & -> & HB)]; cbn [obind]; [eauto|]. right. unfold too_big. eauto 6.
Qed.
Lemma nodes_forall (P : node -> Prop) l : (forall n, In (ONode n) l -> P n) -> Forall P (nodes_of l).
Proof. intros H. apply Forall_forall. intros n Hn. apply H, nodes_in, Hn. Qed.
Lemma object_succ s0 h chunks ps l w o : writes_complete s0 -> run s0 h chunks ps l w -> obj_fine o -> near_ids o -> known_members o ->
  Forall near_ids l -> (Z.of_nat (List.length l) < 8000 -> room (flat_map (recorded c) (l ++ [o]))) -> room (flat_map (recorded c) [o]) ->
  (exists w', pbf_object K c o w = Ok (w', None)) \/ (cf_compress c = true /\ pbf_object K c o w = Throw ERuntime /\ too_big l).
Proof.
  intros HW RN HO HN HM HL HR1 HR2. unfold pbf_object, check_block_contents_counter.
  set (w1 := if w_contents w >=? max_block_contents then _ else _).
  assert (X : (exists v chunks' ps' l', w1 = Ok v /\ run s0 h chunks' ps' l' v /\ Z.of_nat (List.length l') < 8000 /\ (l' = l \/ l' = [])) \/
              (cf_compress c = true /\ w1 = Throw ERuntime /\ too_big l)).
  { subst w1. pose proof (rn_inv _ _ _ _ _ _ _ _ _ _ _ _ _ RN) as I. pose proof (wi_contents _ _ _ _ _ I) as EC.
    pose proof (rn_len _ _ _ _ _ _ _ _ _ _ _ _ _ RN) as HLn.
    assert (FL : l <> [] -> (exists v chunks' ps' l', store_primitive_block K c w = Ok v /\ run s0 h chunks' ps' l' v /\ Z.of_nat (List.length l') < 8000 /\ (l' = l \/ l' = [])) \/
              (cf_compress c = true /\ store_primitive_block K c w = Throw ERuntime /\ too_big l)).
    { intros NE. destruct (flush_succ _ _ _ _ _ _ HW RN) as [(v & ES)|H]; [left|right; exact H].
      destruct (run_flush K c ec et fc ft T HK WC WT HC HT HE HF _ _ _ _ _ _ _ RN NE ES) as (p & RN'). exists v, (chunks ++ [l]), (ps ++ [p]), [].
      split; [exact ES|]. split; [exact RN'|]. split; [cbn; lia|auto]. }
    rewrite EC. unfold max_block_contents. destruct (_ >=? 8000) eqn:E1.
    - apply FL. intros ->. cbn in E1. discriminate.
    - destruct (w_size w >? _) eqn:E2.
      + apply FL. intros ->. rewrite (wi_size _ _ _ _ _ I eq_refl) in E2. discriminate.
      + left. exists w, chunks, ps, l. split; [reflexivity|]. split; [exact RN|]. split; [lia|auto]. }
  destruct X as [(v & ch' & ps' & l' & -> & RN' & HLn & HL')|(X & -> & XB)]; cbn [obind]; [left|right; auto].
  assert (HR : room (flat_map (recorded c) (l' ++ [o]))) by (destruct HL' as [->| ->]; [auto|exact HR2]). clear HR1 HR2.
  assert (HA : Forall near_ids l') by (destruct HL' as [->| ->]; [exact HL|constructor]).
  pose proof (rn_fine _ _ _ _ _ _ _ _ _ _ _ _ _ RN') as HFN. rewrite Forall_forall in HA, HFN.
  pose proof (need_group_ok c ec et T WC WT l' o v (rn_inv _ _ _ _ _ _ _ _ _ _ _ _ _ RN') HLn) as I2. set (w2 := need_group _ _) in *. clearbody w2.
  destruct o as [n|y|y].
  - destruct (cf_dense c) eqn:ED.
    + assert (DR : dense_room c ec et n w2).
      { destruct HO as [[Ha [Hx Hy]] HTt]. cbn [obj_attrs] in *. destruct HN as [HN _]. cbn [obj_attrs] in HN.
        destruct (w2_delta _ _ _ _ _ _ I2 ED) as (D1 & D2 & D3 & D4). unfold dense_room. rewrite D1, D2, D3.
        assert (M0 : mid 0) by (unfold mid; lia).
        assert (SUB : forall a b, mid a -> mid b -> in_i64 (a - b)) by (unfold mid, in_i64, int64_min, int64_max; lia).
        split; [apply SUB; [exact HN|]; apply last_bounded; [exact M0|]; apply nodes_forall; intros q Hq; apply (HA _ Hq)|].
        split; [apply SUB; [apply BE; exact Hx|]; apply last_bounded; [exact M0|]; apply nodes_forall; intros q Hq; apply BE; apply (HFN _ Hq)|].
        split; [apply SUB; [apply BE; exact Hy|]; apply last_bounded; [exact M0|]; apply nodes_forall; intros q Hq; apply BE; apply (HFN _ Hq)|].
        intros EM. destruct (D4 EM) as (-> & -> & ->).
        assert (I32 : forall z, in_i32 z -> mid z) by (unfold mid, in_i32, int32_min, int32_max; lia).
        destruct Ha as (_ & _ & Hc & _ & Hu & _).
        split; [apply SUB; [apply BT; exact HTt|]; apply last_bounded; [exact M0|]; apply nodes_forall; intros q Hq; apply BT; apply (HFN _ Hq)|].
        split; [apply SUB; [apply I32; exact Hc|]; apply last_bounded; [exact M0|]; apply nodes_forall; intros q Hq; apply I32; apply (HFN _ Hq)|].
        apply SUB; [apply I32; exact Hu|]; apply last_bounded; [exact M0|]; apply nodes_forall; intros q Hq; apply I32; apply (HFN _ Hq). }
      destruct (write_dense_step c ec et T WC WT l' n w2 ED I2 HO DR HR) as (w4 & EW' & _). rewrite EW'. cbn [obind]. eauto.
    + destruct (write_node_step c ec et T WC WT l' n w2 ED I2 HO HR) as (w4 & EW' & _). rewrite EW'. cbn [obind]. eauto.
  - destruct HN as [_ HN]. destruct (encode_refs_succ (map wn_ref (w_nodes y)) 0) as (xs & EX); [unfold mid; lia|apply Forall_map; exact HN|].
    destruct (write_way_step K c ec et T WT l' y w2 xs I2 HO EX HR) as (w4 & EW' & _). rewrite EW'. cbn [obind]. eauto.
  - destruct (write_rel_step K c ec et T WT l' y w2 I2 HO HR _ eq_refl) as [(w4 & EW & _)|B]; [rewrite EW; eauto|]. exfalso.
    destruct HO as [[Ha Hm] HTt]. cbn [obj_attrs] in *. rewrite recorded_snoc in HR. unfold recorded at 2 in HR. cbn [obj_attrs] in HR. rewrite app_assoc in HR.
    destruct (apply_common_ok c et T WT (r_attrs y) _ (w_st w2) (or_introl HTt) (w2_st _ _ _ _ _ _ I2) (room_app_l _ _ HR)) as (t' & pc & E & _).
    destruct HN as [_ HN]. destruct (encode_members_succ (r_members y) 0 t' ltac:(unfold mid; lia) HN HM) as (t2 & ks & ds & ys & EM).
    destruct (w2_index _ _ _ _ _ _ I2) as (i & Ei). cbn [w_ptr obj_type] in Ei.
    unfold write_relation in B. rewrite E in B. cbn [obind] in B. change delta_new with 0 in B. rewrite EM in B. cbn [obind] in B. rewrite Ei in B.
    destruct B as [(w' & e & B)|B]; [discriminate|]. exact (B _ eq_refl).
Qed.
Lemma Forall_app_l {A} (P : A -> Prop) a b : Forall P (a ++ b) -> Forall P b.
Proof. intros H. apply Forall_app in H. tauto. Qed.
Lemma objects_succ s0 h os : writes_complete s0 -> forall done chunks ps l w, run s0 h chunks ps l w -> List.concat chunks ++ l = done ->
  Forall obj_fine os -> Forall near_ids (done ++ os) -> Forall known_members os -> few_texts (done ++ os) ->
  (exists w' chunks' ps' l', pbf_objects K c os w = Ok w' /\ run s0 h chunks' ps' l' w' /\ List.concat chunks' ++ l' = done ++ os) \/
  (cf_compress c = true /\ pbf_objects K c os w = Throw ERuntime /\ too_big_piece (done ++ os)).
Proof.
  intros HW. induction os as [|o os IH]; intros done chunks ps l w RN ED HA HN HM FT; cbn [pbf_objects].
  - left. rewrite app_nil_r. eauto 7.
  - inversion HA as [|? ? HO HA']; inversion HM as [|? ? HM1 HM2]; subst.
    assert (R1 : Z.of_nat (List.length l) < 8000 -> room (flat_map (recorded c) (l ++ [o]))).
    { intros HL. apply room_texts. apply (FT (List.concat chunks) (l ++ [o]) os); [rewrite <- !app_assoc; reflexivity|].
      rewrite app_length. cbn [List.length]. lia. }
    assert (R2 : room (flat_map (recorded c) [o])).
    { apply room_texts. apply (FT (List.concat chunks ++ l) [o] os); [reflexivity|cbn; lia]. }
    pose proof HN as HN'. apply Forall_app in HN as [HN1 HN2]. apply Forall_app_l in HN1. inversion HN2 as [|? ? HN3 HN4]; subst.
    destruct (object_succ _ _ _ _ _ _ o HW RN HO HN3 HM1 HN1 R1 R2) as [(w1 & EO)|(X & -> & XB)].
    2:{ right. do 2 (split; [assumption || reflexivity|]). exists (List.concat chunks), l, (o :: os).
        split; [rewrite <- app_assoc; reflexivity|]. split; [apply RN|exact XB]. }
    rewrite EO. cbn [obind].
    destruct (run_object K c ec et fc ft T HK WC WT HC HT HE HF _ _ _ _ _ _ o w1 RN HO R1 R2 EO) as (ch1 & ps1 & l1 & RN1 & EQ & _).
    change (o :: os) with ([o] ++ os) in *. rewrite (app_assoc _ [o] os) in *.
    apply (IH ((List.concat chunks ++ l) ++ [o]) _ _ _ _ RN1 ltac:(rewrite EQ, app_assoc; reflexivity) HA'); auto.
Qed.
Lemma write_succ m os sched hb : header_of c m = Ok hb -> Forall obj_fine os -> Forall near_ids os -> Forall known_members os -> few_texts os ->
  writes_complete sched ->
  (exists file, write_pbf K c m os sched = Ok file) \/
  (cf_compress c = true /\ write_pbf K c m os sched = Throw ERuntime /\ (limit < blen (zdeflate K (ser_hb K hb)) \/ too_big_piece os)).
Proof.
  intros EH HA HN HM FT HW. unfold write_pbf, pbf_init. rewrite EH. cbn [obind].
  change (w_fd (pwriter_new (mkOfd [] sched))) with (mkOfd [] sched).
  destruct (store_one "OSMHeader" (ser_hb K hb) (mkOfd [] sched) HW) as [(f & ES)|(X & -> & XB)]; [|right; auto]. rewrite ES. cbn [obind].
  change (with_fd f (pwriter_new (mkOfd [] sched))) with (pwriter_new f).
  destruct (objects_succ sched (ser_hb K hb) os HW [] [] [] [] (pwriter_new f)) as [(w2 & ch & ps & l & -> & RN & EQ)|(X & -> & XB)]; auto.
  { constructor; [apply winv_new|cbn; lia|constructor|unfold room; cbn; lia|cbn [data map store_all]; rewrite ES; reflexivity|constructor]. }
  cbn [obind]. unfold pbf_final. destruct (w_contents w2 >? 0); cbn [obind]; [|eauto].
  destruct (flush_succ _ _ _ _ _ _ HW RN) as [(w3 & ->)|(X & -> & XB)]; cbn [obind]; [eauto|].
  right. do 2 (split; [assumption || reflexivity|]). right. exists (List.concat ch), l, []. rewrite app_nil_r. cbn [app] in EQ.
  split; [symmetry; exact EQ|]. split; [apply RN|exact XB].
Qed.
End Succ.
