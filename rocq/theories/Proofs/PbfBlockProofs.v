(** A block as it is stored encodes the objects written since the last block. *)
From Verif Require Import Base.Prelude Base.SMap Model.Osm Model.Float Model.Utils Model.Attr Model.OsmFile Model.Handler Model.Pbf
  Spec.UtilsSpec Spec.TagsSpec Spec.HandlerSpec Spec.PbfSpec Proofs.UtilsProofs Proofs.PbfStringProofs Proofs.PbfDecodeProofs Proofs.PbfWriteProofs.

Lemma map_all_rel {A X} (f : A -> outcome A) (R R' : X -> A -> Prop) xs ps :
  (forall x p, R x p -> exists p', f p = Ok p' /\ R' x p') -> Forall2 R xs ps ->
  exists ps', map_all f ps = Ok ps' /\ Forall2 R' xs ps'.
Proof.
  intros H. induction 1 as [|x p xs ps Hx _ (ps' & E & F)]; [exists []; split; [reflexivity|constructor]|].
  destruct (H x p Hx) as (p' & E' & H'). exists (p' :: ps'). cbn. rewrite E', E. split; [reflexivity|constructor; assumption].
Qed.

Lemma Forall2_with {A B} (P : A -> Prop) (R Q : A -> B -> Prop) xs ps : Forall P xs -> Forall2 R xs ps ->
  (forall x p, P x -> R x p -> Q x p) -> Forall2 Q xs ps.
Proof. intros HP HR H. induction HR as [|x p xs ps Hx _ IH]; constructor; inversion HP; subst; auto. Qed.
Lemma Forall2_right {A B} (P : A -> Prop) (R : A -> B -> Prop) (Q : B -> Prop) xs ps : Forall P xs -> Forall2 R xs ps ->
  (forall x p, P x -> R x p -> Q p) -> Forall Q ps.
Proof. intros HP HR H. induction HR as [|x p xs ps Hx _ IH]; constructor; inversion HP; subst; eauto. Qed.

Lemma ids_u32 tbl ks ss : Forall2 (final_id tbl) ks ss -> Forall in_u32 ks.
Proof. induction 1 as [|k s ks ss [H _] _ IH]; constructor; [unfold in_u32; lia|exact IH]. Qed.
Lemma ids_i32 tbl ks ss : Forall2 (final_id tbl) ks ss -> Forall in_i32 ks.
Proof. induction 1 as [|k s ks ss [H _] _ IH]; constructor; [unfold in_i32, int32_min, int32_max; lia|exact IH]. Qed.
Lemma interleave_forall (P : Z -> Prop) ks : forall vs, Forall P ks -> Forall P vs -> Forall P (interleave ks vs).
Proof.
  induction ks as [|k ks IH]; intros [|v vs] A B; cbn; try constructor.
  - inversion A; assumption.
  - inversion A; inversion B; subst. constructor; auto.
Qed.
Lemma deltas_i32 tbl js ss : Forall2 (final_id tbl) js ss -> forall m, 0 <= m <= 65535 -> Forall in_i32 (deltas m js).
Proof.
  induction 1 as [|j s js ss [H _] _ IH]; intros m Hm; cbn; constructor; [unfold in_i32, int32_min, int32_max; lia|apply IH; lia].
Qed.

Section Map.
Variables (c : pcfg) (ec et : Z -> Z) (t : stringtable) (tbl : list string) (R : Z -> string -> Prop).
Hypothesis HM : forall k s, R k s -> exists j, map_string_id k t = Ok j /\ final_id tbl j s.
Hypothesis HR : forall k s, R k s -> 1 <= k <= 65535.
Notation F := (final_id tbl).

Lemma map_common_ok a p : common_rel c et R a p -> exists p', map_common t p = Ok p' /\ common_rel c et F a p'.
Proof.
  intros (A & B & D). unfold map_common. destruct (map_tags_rel t R F HM _ _ _ B) as (ks & vs & E1 & E2 & B').
  unfold common_rel, info_rel in *. destruct (cf_meta c).
  - destruct D as (u & Hu & ->). destruct (HM _ _ Hu) as (j & Ej & Hj). cbn [i_user_sid]. rewrite Ej. cbn [obind].
    rewrite E1, E2. cbn [obind]. eexists. split; [reflexivity|]. cbn. split; [exact A|]. split; [exact B'|]. exists j. auto.
  - rewrite D. cbn [obind]. rewrite E1, E2. cbn [obind]. eexists. split; [reflexivity|]. cbn. auto.
Qed.
Lemma map_pnode_ok n p : node_rel c ec et R n p -> exists p', map_pnode t p = Ok p' /\ node_rel c ec et F n p'.
Proof.
  intros (A & B). unfold map_pnode. destruct (map_common_ok _ _ A) as (p' & E & A'). rewrite E. cbn [obind].
  eexists. split; [reflexivity|]. split; [exact A'|exact B].
Qed.
Lemma map_pway_ok n p : way_rel c et R n p -> exists p', map_pway t p = Ok p' /\ way_rel c et F n p'.
Proof.
  intros (A & B). unfold map_pway. destruct (map_common_ok _ _ A) as (p' & E & A'). rewrite E. cbn [obind].
  eexists. split; [reflexivity|]. split; [exact A'|exact B].
Qed.
Lemma map_prel_ok n p : rel_rel c et R n p -> exists p', map_prel t p = Ok p' /\ rel_rel c et F n p'.
Proof.
  intros (A & B & D). unfold map_prel. destruct (map_common_ok _ _ A) as (p' & E & A'). rewrite E. cbn [obind].
  destruct (map_ids_rel t R F HM _ _ B) as (rs & Er & B'). rewrite Er. cbn [obind].
  eexists. split; [reflexivity|]. split; [exact A'|]. split; [exact B'|exact D].
Qed.
Lemma map_users_ok us users : Forall2 R us users -> forall m, 0 <= m <= 65535 ->
  exists m' ds js, map_users t m us = Ok (m', ds) /\ Forall2 F js users /\ ds = deltas m js.
Proof.
  induction 1 as [|k s us users Hk _ IH]; intros m Hm; [exists m, [], []; repeat split; constructor|].
  destruct (HM _ _ Hk) as (j & Ej & Hj). pose proof (proj1 Hj) as Rj. cbn [map_users]. rewrite Ej. cbn [obind].
  unfold delta_update, isub. cbn [obind]. destruct (IH j ltac:(lia)) as (m' & ds & js & E & Fj & ->). rewrite E. cbn [obind].
  exists m', (to_i32 (to_u32 (j - m)) :: deltas j js), (j :: js). split; [reflexivity|]. split; [constructor; assumption|].
  cbn [deltas]. f_equal. unfold to_i32, to_u32. lia.
Qed.
Lemma map_kv_all ns kvs : Forall2 (fun n kv => kv_rel R (n_attrs n) kv) ns kvs ->
  exists kvs', map_kv t (List.concat kvs) = Ok (List.concat kvs') /\ Forall2 (fun n kv => kv_rel F (n_attrs n) kv) ns kvs'.
Proof.
  induction 1 as [|n kv ns kvs (ks & vs & Hk & ->) _ (kvs' & E & Fk)]; [exists []; split; [reflexivity|constructor]|].
  destruct (map_kv_tags t R F HM HR _ _ _ Hk) as (ks' & vs' & E' & H').
  exists ((interleave ks' vs' ++ [0]) :: kvs'). cbn [List.concat]. split; [apply map_kv_app; assumption|].
  constructor; [|exact Fk]. exists ks', vs'. auto.
Qed.
Lemma map_dense_ok ns d : dense_rel c ec et R (Forall2 R) ns d ->
  exists m' d', map_dense t 0 d = Ok (m', d') /\ dense_rel c ec et F (users_rel tbl) ns d'.
Proof.
  intros (D1 & D1' & D2 & D2' & D3 & D3' & (kvs & D4 & D4') & D5). unfold map_dense.
  destruct (map_kv_all _ _ D4') as (kvs' & E4 & F4). rewrite D4, E4. cbn [obind].
  destruct (dn_info d) as [i|] eqn:EI.
  - destruct (cf_meta c) eqn:EM; [|congruence]. destruct D5 as [DI D6]. unfold the_dinfo in DI. rewrite EI in DI.
    destruct DI as (I1 & I2 & I2' & I3 & I3' & I4 & I5 & I6).
    destruct (map_users_ok _ _ I5 0 ltac:(lia)) as (m' & ds & js & E5 & Fj & ED). rewrite E5. cbn [obind].
    do 2 eexists. split; [reflexivity|]. unfold dense_rel. cbn. rewrite EM. repeat (split; [assumption|]).
    split; [exists kvs'; auto|]. split; [|discriminate]. unfold dinfo_rel, the_dinfo. cbn. repeat (split; [assumption|]).
    split; [exists js; auto|exact I6].
  - do 2 eexists. split; [reflexivity|]. unfold dense_rel. cbn. repeat (split; [assumption|]).
    split; [exists kvs'; auto|]. destruct (cf_meta c); [|reflexivity]. destruct D5 as [DI D6].
    assert (EN : ns = []) by (destruct ns; [reflexivity|exfalso; apply D6; [discriminate|reflexivity]]). subst ns.
    split; [|congruence]. unfold dinfo_rel, the_dinfo. cbn. repeat (split; [reflexivity || constructor|]).
    split; [exists []; split; [constructor|reflexivity]|]. destruct (cf_visible c); reflexivity.
Qed.
End Map.

Section Block.
Variables (K : codec) (c : pcfg) (ec et fc ft : Z -> Z) (T : Z -> Prop).
Hypothesis HK : codec_ok K.
Hypothesis HC : forall x, in_i32 x -> exists y, decode_coord (ec x) (to_i32 (cf_gran c)) 0 = Ok y /\ to_i32 y = fc x.
Hypothesis HT : forall t, T t -> i64 (et t * Z.quot (to_i32 (cf_dgran c)) 1000) = Ok (ft t).
Hypothesis HE : forall x, in_i32 x -> in_i64 (ec x).
Hypothesis HF : forall t, T t -> in_i64 (et t).
Notation winv := (winv c ec et).
Notation group_rel := (group_rel c ec et).
Notation obj_fine := (obj_fine T).

Lemma map_string_ids_ok l w t tbl : winv l w ->
  (forall k s, stands (w_st w) k s -> exists j, map_string_id k t = Ok j /\ final_id tbl j s) ->
  (forall k s, stands (w_st w) k s -> 1 <= k <= 65535) ->
  exists m gs, map_string_ids t (w_dsid w) w = Ok (m, gs) /\ Forall2 (group_rel (final_id tbl) (users_rel tbl) l) (kinds [] l) gs.
Proof.
  intros I HM HR. destruct I as [I1 I2 I3 I4 I5 I6 I7]. unfold map_string_ids. rewrite I7.
  set (R := stands (w_st w)) in *. set (ks := kinds [] l) in *. assert (ND : NoDup ks) by apply kinds_nodup.
  set (Int := group_rel R (Forall2 R) l) in *. set (Fin := group_rel (final_id tbl) (users_rel tbl) l).
  pose (R1 := fun k g => match k with NODE => Fin k g | _ => Int k g end).
  pose (R2 := fun k g => match k with NODE | WAY => Fin k g | _ => Int k g end).
  assert (S1 : exists m gs, (match w_pn w with
    | None => Ok (0, w_groups w)
    | Some i => match nth_error (w_groups w) i with
        | None => UB
        | Some g =>
            let! ns := map_all (map_pnode t) (g_nodes g) in
            let! (m', d) := match g_dense g with
                            | None => Ok (0, None)
                            | Some d => let! (m', d') := map_dense t 0 d in Ok (m', Some d')
                            end in
            let! gs := upd_o i (fun _ => Ok (mkPG ns d (g_ways g) (g_rels g))) (w_groups w) in
            Ok (m', gs)
        end
    end) = Ok (m, gs) /\ Forall2 R1 ks gs).
  { specialize (I5 NODE) as IP. cbn [w_ptr] in IP. destruct (w_pn w) as [i|].
    - pose proof (index_nth _ _ _ (eq_sym IP)) as HN. destruct (Forall2_nth _ _ _ I4 _ _ HN) as (g & Eg & Hg). rewrite Eg.
      cbn [group_rel] in Hg. pose proof Hg as (G1 & G2 & G3).
      assert (X : exists ns m' d', map_all (map_pnode t) (g_nodes g) = Ok ns /\
        (match g_dense g with None => Ok (0, None) | Some d => let! (m', d') := map_dense t 0 d in Ok (m', Some d') end) = Ok (m', d') /\
        Fin NODE (mkPG ns d' (g_ways g) (g_rels g))).
      { unfold Fin. cbn [PbfWriteProofs.group_rel]. cbn [g_ways g_rels g_nodes g_dense]. destruct (cf_dense c).
        - destruct G3 as (G3 & G4 & G5). rewrite G3. unfold the_dense in G4. destruct (g_dense g) as [d|] eqn:ED.
          + destruct (map_dense_ok c ec et t tbl R HM HR _ _ G4) as (m' & d' & E' & H'). exists [], m', (Some d'). rewrite E'.
            do 5 (split; [reflexivity || assumption|]). split; [exact H'|discriminate].
          + destruct (map_dense_ok c ec et t tbl R HM HR _ _ G4) as (m' & d' & E' & H'). cbn in E'. injection E' as <- <-.
            exists [], 0, None. do 5 (split; [reflexivity || assumption|]). split; [exact H'|]. exact G5.
        - destruct G3 as (G3 & G4). rewrite G3.
          destruct (map_all_rel (map_pnode t) _ _ _ _ (map_pnode_ok c ec et t tbl R HM) G4) as (ns & E' & H').
          exists ns, 0, None. do 5 (split; [reflexivity || assumption|]). exact H'. }
      destruct X as (ns & m' & d' & X1 & X2 & X3). rewrite X1. cbn [obind]. rewrite X2. cbn [obind].
      destruct (Forall2_upd_o Int R1 NODE (fun _ => Ok (mkPG ns d' (g_ways g) (g_rels g))) ks (w_groups w) i ND I4 (eq_sym IP)) as (gs & Eu & Hu).
      + intros [] g' N Hg'; cbn in *; tauto.
      + intros g' _ _. eexists. split; [reflexivity|]. exact X3.
      + rewrite Eu. cbn [obind]. eauto.
    - exists 0, (w_groups w). split; [reflexivity|].
      assert (N : ~ In NODE ks) by (apply index_none; symmetry; exact IP). clear - I4 N.
      induction I4 as [|k g ks gs H F IH]; constructor; [|apply IH; intros C; apply N; right; exact C].
      destruct k; cbn; try exact H. exfalso. apply N. left; reflexivity. }
  destruct S1 as (m & gs1 & E1 & F1).
  assert (S2 : exists gs2, (match w_pw w with
    | None => Ok gs1
    | Some i => upd_o i (fun g => let! ws := map_all (map_pway t) (g_ways g) in Ok (mkPG (g_nodes g) (g_dense g) ws (g_rels g))) gs1
    end) = Ok gs2 /\ Forall2 R2 ks gs2).
  { specialize (I5 WAY) as IP. cbn [w_ptr] in IP. destruct (w_pw w) as [i|].
    - eapply (Forall2_upd_o R1 R2 WAY); [exact ND|exact F1|exact (eq_sym IP)| |].
      + intros [] g' N Hg'; cbn in *; tauto.
      + intros g _ (G1 & G2 & G3 & G4). destruct (map_all_rel (map_pway t) _ _ _ _ (map_pway_ok c et t tbl R HM) G4) as (ws & E' & H').
        rewrite E'. cbn [obind]. eexists. split; [reflexivity|]. cbn. auto.
    - exists gs1. split; [reflexivity|].
      assert (N : ~ In WAY ks) by (apply index_none; symmetry; exact IP). clear - F1 N.
      induction F1 as [|k g ks gs H F IH]; constructor; [|apply IH; intros C; apply N; right; exact C].
      destruct k; cbn in *; try exact H. exfalso. apply N. left; reflexivity. }
  destruct S2 as (gs2 & E2 & F2).
  assert (S3 : exists gs3, (match w_pr w with
    | None => Ok gs2
    | Some i => upd_o i (fun g => let! rs := map_all (map_prel t) (g_rels g) in Ok (mkPG (g_nodes g) (g_dense g) (g_ways g) rs)) gs2
    end) = Ok gs3 /\ Forall2 Fin ks gs3).
  { specialize (I5 RELATION) as IP. cbn [w_ptr] in IP. destruct (w_pr w) as [i|].
    - eapply (Forall2_upd_o R2 Fin RELATION); [exact ND|exact F2|exact (eq_sym IP)| |].
      + intros [] g' N Hg'; cbn in *; tauto.
      + intros g _ (G1 & G2 & G3 & G4). destruct (map_all_rel (map_prel t) _ _ _ _ (map_prel_ok c et t tbl R HM) G4) as (ws & E' & H').
        rewrite E'. cbn [obind]. eexists. split; [reflexivity|]. cbn. auto.
    - exists gs2. split; [reflexivity|].
      assert (N : ~ In RELATION ks) by (apply index_none; symmetry; exact IP). clear - F2 N.
      induction F2 as [|k g ks gs H F IH]; constructor; [|apply IH; intros C; apply N; right; exact C].
      destruct k; cbn in *; try exact H; try tauto. }
  destruct S3 as (gs3 & E3 & F3).
  exists m, gs3. split; [|exact F3]. rewrite E1. cbn [obind]. rewrite E2. cbn [obind]. rewrite E3. reflexivity.
Qed.

Lemma final_block_ok l w : winv l w -> room (flat_map (recorded c) l) ->
  exists tbl gs, final_block K c w = Ok (blk c tbl gs) /\ Forall2 (group_rel (final_id tbl) (users_rel tbl) l) (kinds [] l) gs /\
    exists ts, tbl = ""%string :: ts /\ NoDup ts /\ forall s, In s ts <-> In s (flat_map (recorded c) l).
Proof.
  intros I R. unfold final_block.
  destruct (store_final (mm_order K) _ _ (ok_order K HK) (wi_st _ _ _ _ _ I) R) as (t & tbl & E & HM & HTb). rewrite E. cbn [obind].
  destruct (map_string_ids_ok l w t tbl I HM) as (m & gs & E2 & F).
  - intros k s. apply (stands_range _ _ _ _ (wi_st _ _ _ _ _ I) R).
  - rewrite E2. cbn [obind]. exists tbl, gs. split; [reflexivity|]. split; [exact F|exact HTb].
Qed.

(* ---- reading the block ---- *)
Lemma kinds_nonempty l t : In t (kinds [] l) -> ofilter t l <> [].
Proof.
  rewrite kinds_in. intros [H _]. apply in_map_iff in H as (o & <- & Ho). intros C.
  assert (In o (ofilter (obj_type o) l)). { apply filter_In. split; [exact Ho|]. destruct (otype_eqb_spec (obj_type o) (obj_type o)); congruence. }
  rewrite C in H. exact H.
Qed.
Lemma fine_attrs o : obj_fine o -> attrs_fine T (obj_attrs o).
Proof. intros [[H _] H2]. split; assumption. Qed.
Lemma fine_node n : obj_fine (ONode n) -> node_fine T n.
Proof. intros H. split; [apply (fine_attrs _ H)|]. apply H. Qed.

Lemma parse_group_ok tbl gs l t g : Forall obj_fine l -> Z.of_nat (List.length l) <= 1000000 -> In t (kinds [] l) ->
  group_rel (final_id tbl) (users_rel tbl) l t g ->
  parse_group (blk c tbl gs) g = (Some (t, map (kept_with c fc ft) (ofilter t l)), Ok tt).
Proof.
  intros HA HL Hin H. pose proof (kinds_nonempty _ _ Hin) as NE. rewrite Forall_forall in HA. unfold parse_group.
  destruct t; cbn [PbfWriteProofs.group_rel] in H; try tauto.
  - rewrite ofilter_nodes in *. rewrite map_map. assert (NN : nodes_of l <> []) by (destruct (nodes_of l); [exact (fun _ => NE eq_refl)|discriminate]).
    destruct H as (G1 & G2 & G3). rewrite G1, G2. destruct (cf_dense c).
    + destruct G3 as (_ & G4 & G5). unfold the_dense in G4. destruct (g_dense g) as [d|]; [|destruct (G5 NN eq_refl)].
      rewrite (dense_group_ok c ec et fc ft T HC HT HE HF tbl gs (nodes_of l) d); [reflexivity| |  |exact G4].
      * pose proof (nodes_len l). lia.
      * apply Forall_forall. intros n Hn. apply fine_node, HA, nodes_in, Hn.
    + destruct G3 as (-> & G4). destruct (g_nodes g) as [|p ps]; [inversion G4; congruence|].
      rewrite (decode_list_ok (decode_node (blk c tbl gs)) (fun n => kept_with c fc ft (ONode n)) (nodes_of l)); [reflexivity|].
      assert (HA' : Forall (node_fine T) (nodes_of l)) by (apply Forall_forall; intros n Hn; apply fine_node, HA, nodes_in, Hn).
      apply (Forall2_with _ _ _ _ _ HA' G4). intros n q [H1 [H2 H3]] H. eapply decode_node_ok; eauto.
  - rewrite ofilter_ways in *. rewrite map_map. destruct H as (G1 & G2 & G3 & G4). rewrite G2.
    destruct (g_ways g) as [|p ps]; [inversion G4 as [E|]; rewrite <- E in NE; destruct (NE eq_refl)|].
    rewrite (decode_list_ok (decode_way (blk c tbl gs)) (fun n => kept_with c fc ft (OWay n)) (ways_of l)); [reflexivity|].
    assert (HA' : Forall (fun y => obj_fine (OWay y)) (ways_of l)) by (apply Forall_forall; intros n Hn; apply HA, ways_in, Hn).
    apply (Forall2_with _ _ _ _ _ HA' G4). intros n q H1 H. eapply decode_way_ok; eauto; [apply (fine_attrs _ H1)|apply H1].
  - rewrite ofilter_rels in *. rewrite map_map. destruct H as (G1 & G2 & G3 & G4). rewrite G2, G3.
    destruct (g_rels g) as [|p ps]; [inversion G4 as [E|]; rewrite <- E in NE; destruct (NE eq_refl)|].
    rewrite (decode_list_ok (decode_relation (blk c tbl gs)) (fun n => kept_with c fc ft (ORel n)) (rels_of l)); [reflexivity|].
    assert (HA' : Forall (fun y => obj_fine (ORel y)) (rels_of l)) by (apply Forall_forall; intros n Hn; apply HA, rels_in, Hn).
    apply (Forall2_with _ _ _ _ _ HA' G4). intros n q H1 H. eapply decode_relation_ok; eauto; [apply (fine_attrs _ H1)|apply H1].
Qed.
Lemma parse_groups_ok tbl gs0 l : Forall obj_fine l -> Z.of_nat (List.length l) <= 1000000 ->
  forall ks gs, (forall t, In t ks -> In t (kinds [] l)) -> Forall2 (group_rel (final_id tbl) (users_rel tbl) l) ks gs ->
  parse_groups (blk c tbl gs0) gs = (map (fun t => (t, map (kept_with c fc ft) (ofilter t l))) ks, Ok tt).
Proof.
  intros HA HL ks gs Hin. induction 1 as [|t g ks gs H _ IH]; [reflexivity|]. cbn [parse_groups map].
  rewrite (parse_group_ok tbl gs0 l t g HA HL (Hin t (or_introl eq_refl)) H). rewrite IH; [reflexivity|]. intros t' Ht'. apply Hin. right; exact Ht'.
Qed.
Lemma kept_type o : obj_type (kept_with c fc ft o) = obj_type o.
Proof. destruct o; reflexivity. Qed.
Lemma kinds_map f l : (forall o, obj_type (f o) = obj_type o) -> forall seen, kinds seen (map f l) = kinds seen l.
Proof. intros H. induction l as [|o l IH]; intros seen; cbn; [reflexivity|]. rewrite H, !IH. reflexivity. Qed.
Lemma ofilter_map f l t : (forall o, obj_type (f o) = obj_type o) -> ofilter t (map f l) = map f (ofilter t l).
Proof. intros H. unfold ofilter. induction l as [|o l IH]; cbn; [reflexivity|]. rewrite H, IH. destruct (otype_eqb (obj_type o) t); reflexivity. Qed.
Lemma by_kind_kept l : by_kind (map (kept_with c fc ft) l) = map (fun t => (t, map (kept_with c fc ft) (ofilter t l))) (kinds [] l).
Proof. unfold by_kind. rewrite kinds_map by apply kept_type. apply map_ext. intros t. rewrite ofilter_map by apply kept_type. reflexivity. Qed.

(* ---- the numbers fit ---- *)
Lemma common_fits_ok tbl a p : attrs_fine T a -> common_rel c et (final_id tbl) a p -> common_fits p.
Proof.
  intros [(Hid & Hv & Hc & _ & Hu & _) HTt] (A & [B1 B2] & D). unfold common_fits. rewrite A.
  split; [exact Hid|]. split; [eapply ids_u32; eauto|]. split; [eapply ids_u32; eauto|].
  unfold info_rel in D. destruct (cf_meta c); [|rewrite D; exact I]. destruct D as (u & Hj & ->). unfold info_fits. cbn.
  split; [apply to_i32_range|]. split; [auto|]. split; [unfold in_i32, in_i64, int32_min, int32_max, int64_min, int64_max in *; lia|].
  split; [apply to_i32_range|]. destruct Hj as [Hj _]. unfold in_u32. lia.
Qed.
Lemma group_fits_ok tbl l t g : Forall obj_fine l -> group_rel (final_id tbl) (users_rel tbl) l t g -> group_fits g.
Proof.
  intros HA H. rewrite Forall_forall in HA. unfold group_fits. destruct t; cbn [PbfWriteProofs.group_rel] in H; try tauto.
  - destruct H as (-> & -> & G). destruct (cf_dense c).
    + destruct G as (-> & G & _). split; [constructor|]. split; [constructor|]. split; [constructor|].
      unfold the_dense in G. destruct (g_dense g) as [d|]; [|exact I].
      destruct G as (D1 & D1' & D2 & D2' & D3 & D3' & (kvs & D4 & D4') & D5). unfold dense_fits. repeat (split; [assumption|]). split.
      * rewrite D4. clear - D4'. induction D4' as [|n kv ns kvs (ks & vs & [H1 H2] & ->) _ IH]; cbn; [constructor|].
        apply Forall_app. split; [|exact IH]. apply Forall_app. split; [|constructor; [unfold in_i32, int32_min, int32_max; lia|constructor]].
        apply interleave_forall; eapply ids_i32; eauto.
      * destruct (cf_meta c); [|rewrite D5; exact I]. destruct D5 as [D5 _]. unfold the_dinfo in D5. destruct (dn_info d) as [i|]; [|exact I].
        destruct D5 as (I1 & I2 & I2' & I3 & I3' & I4 & (js & I5 & I5') & I6). unfold dinfo_fits.
        split; [rewrite I1; apply Forall_map, Forall_forall; intros; apply to_i32_range|]. split; [exact I2'|]. split; [exact I3'|].
        split; [rewrite I4; apply Forall_map, Forall_forall; intros; apply to_i32_range|]. rewrite I5'. eapply deltas_i32; [exact I5|lia].
    + destruct G as (-> & G). split; [|repeat split; constructor].
      assert (HA' : Forall (fun y => obj_fine (ONode y)) (nodes_of l)) by (apply Forall_forall; intros n Hn; apply HA, nodes_in, Hn).
      apply (Forall2_right _ _ _ _ _ HA' G). intros n q H1 (A & B1 & B2). split; [eapply common_fits_ok; [apply (fine_attrs _ H1)|exact A]|].
      destruct H1 as [[_ [Hx Hy]] _]. rewrite B1, B2. split; auto.
  - destruct H as (-> & -> & -> & G). split; [constructor|]. split; [|repeat split; constructor].
    assert (HA' : Forall (fun y => obj_fine (OWay y)) (ways_of l)) by (apply Forall_forall; intros n Hn; apply HA, ways_in, Hn).
    apply (Forall2_right _ _ _ _ _ HA' G). intros n q H1 (A & B1 & B2). split; [eapply common_fits_ok; [apply (fine_attrs _ H1)|exact A]|exact B2].
  - destruct H as (-> & -> & -> & G). split; [constructor|]. split; [constructor|]. split; [|constructor].
    assert (HA' : Forall (fun y => obj_fine (ORel y)) (rels_of l)) by (apply Forall_forall; intros n Hn; apply HA, rels_in, Hn).
    apply (Forall2_right _ _ _ _ _ HA' G). intros n q H1 (A & B1 & B2 & B3 & B4). split; [eapply common_fits_ok; [apply (fine_attrs _ H1)|exact A]|].
    split; [eapply ids_i32; exact B1|]. split; [exact B3|].
    clear - B4. induction B4 as [|t m ts ms E _ IH]; constructor; [|exact IH]. unfold member_code in E.
    repeat match type of E with context [if ?b then _ else _] => destruct b end; try discriminate; injection E as <-; lia.
Qed.

(** what a stored block is *)
(** its table of texts and its groups *)
Definition block_shape (l : list object) (b : pblock) : Prop :=
  exists ts gs, let tbl := ""%string :: ts in b = blk c tbl gs /\ NoDup ts /\ (forall s, In s ts <-> In s (flat_map (recorded c) l)) /\
    Forall2 (group_rel (final_id tbl) (users_rel tbl) l) (kinds [] l) gs.
Definition good_block (l : list object) (b : pblock) : Prop :=
  block_fits b /\ parse_groups b (pb_groups b) = (by_kind (map (kept_with c fc ft) l), Ok tt) /\ block_shape l b.
Lemma final_block_good l w : winv l w -> Forall obj_fine l -> Z.of_nat (List.length l) <= 8000 -> room (flat_map (recorded c) l) ->
  exists b, final_block K c w = Ok b /\ good_block l b.
Proof.
  intros I HA HL R. destruct (final_block_ok l w I R) as (tbl & gs & E & F & ts & ET & ND & IN). exists (blk c tbl gs). split; [exact E|]. split; [|split].
  - unfold block_fits, blk. cbn. split; [|repeat split; try apply to_i32_range; unfold int64_min, int64_max; lia].
    apply Forall_forall. intros g Hg. clear E. induction F as [|t g' ks gs H F IH]; [destruct Hg|]. destruct Hg as [<-|Hg]; [|auto].
    eapply group_fits_ok; eassumption.
  - rewrite by_kind_kept. apply (parse_groups_ok tbl gs l HA ltac:(lia) (kinds [] l)); [auto|exact F].
  - exists ts, gs. cbv zeta. rewrite <- ET. auto.
Qed.
End Block.
