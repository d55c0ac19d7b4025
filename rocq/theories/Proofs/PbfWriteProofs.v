(** The writer keeps an encoding of the objects written since the last block. *)
From Verif Require Import Base.Prelude Base.SMap Model.Osm Model.Float Model.Utils Model.Attr Model.OsmFile Model.Handler Model.Pbf
  Spec.UtilsSpec Spec.TagsSpec Spec.HandlerSpec Spec.PbfSpec Proofs.UtilsProofs Proofs.PbfStringProofs Proofs.PbfDecodeProofs.

(* ---- objects by kind ---- *)
Definition nodes_of (l : list object) : list node := flat_map (fun o => match o with ONode n => [n] | _ => [] end) l.
Definition ways_of (l : list object) : list way := flat_map (fun o => match o with OWay n => [n] | _ => [] end) l.
Definition rels_of (l : list object) : list relation := flat_map (fun o => match o with ORel n => [n] | _ => [] end) l.
Lemma ofilter_nodes l : ofilter NODE l = map ONode (nodes_of l).
Proof. unfold ofilter, nodes_of. induction l as [|[n|w|r] l IH]; cbn; try rewrite <- IH; reflexivity. Qed.
Lemma ofilter_ways l : ofilter WAY l = map OWay (ways_of l).
Proof. unfold ofilter, ways_of. induction l as [|[n|w|r] l IH]; cbn; try rewrite <- IH; reflexivity. Qed.
Lemma ofilter_rels l : ofilter RELATION l = map ORel (rels_of l).
Proof. unfold ofilter, rels_of. induction l as [|[n|w|r] l IH]; cbn; try rewrite <- IH; reflexivity. Qed.
Lemma nodes_app a b : nodes_of (a ++ b) = nodes_of a ++ nodes_of b.
Proof. apply flat_map_app. Qed.
Lemma ways_app a b : ways_of (a ++ b) = ways_of a ++ ways_of b.
Proof. apply flat_map_app. Qed.
Lemma rels_app a b : rels_of (a ++ b) = rels_of a ++ rels_of b.
Proof. apply flat_map_app. Qed.
Lemma nodes_in n l : In n (nodes_of l) <-> In (ONode n) l.
Proof.
  unfold nodes_of. rewrite in_flat_map. split.
  - intros ([x|x|x] & Hx & E); cbn in E; try (destruct E as [E|[]]; subst; exact Hx); destruct E.
  - intros H. exists (ONode n). split; [exact H|left; reflexivity].
Qed.
Lemma ways_in n l : In n (ways_of l) <-> In (OWay n) l.
Proof.
  unfold ways_of. rewrite in_flat_map. split.
  - intros ([x|x|x] & Hx & E); cbn in E; try (destruct E as [E|[]]; subst; exact Hx); destruct E.
  - intros H. exists (OWay n). split; [exact H|left; reflexivity].
Qed.
Lemma rels_in n l : In n (rels_of l) <-> In (ORel n) l.
Proof.
  unfold rels_of. rewrite in_flat_map. split.
  - intros ([x|x|x] & Hx & E); cbn in E; try (destruct E as [E|[]]; subst; exact Hx); destruct E.
  - intros H. exists (ORel n). split; [exact H|left; reflexivity].
Qed.
Lemma flat_map_len_le {A} (f : object -> list A) l : (forall o, (List.length (f o) <= 1)%nat) -> (List.length (flat_map f l) <= List.length l)%nat.
Proof. intros H. induction l as [|o l IH]; cbn; [lia|]. rewrite app_length. pose proof (H o). lia. Qed.
Lemma nodes_len l : (List.length (nodes_of l) <= List.length l)%nat.
Proof. apply flat_map_len_le. intros [?|?|?]; cbn; lia. Qed.

Lemma otype_eqb_spec a b : reflect (a = b) (otype_eqb a b).
Proof. destruct a, b; cbn; constructor; congruence. Qed.
Lemma existsb_type t l : existsb (otype_eqb t) l = true <-> In t l.
Proof.
  rewrite existsb_exists. split.
  - intros (x & Hx & E). destruct (otype_eqb_spec t x); [subst; exact Hx|discriminate].
  - intros H. exists t. split; [exact H|]. destruct (otype_eqb_spec t t); congruence.
Qed.
Lemma existsb_type_false t l : existsb (otype_eqb t) l = false <-> ~ In t l.
Proof. rewrite <- existsb_type. destruct (existsb _ l); split; congruence. Qed.

Lemma kinds_snoc l o : forall seen, kinds seen (l ++ [o]) =
  kinds seen l ++ (if existsb (otype_eqb (obj_type o)) (seen ++ kinds seen l) then [] else [obj_type o]).
Proof.
  induction l as [|x l IH]; intros seen; cbn [app kinds].
  - rewrite app_nil_r. destruct (existsb _ seen); reflexivity.
  - destruct (existsb (otype_eqb (obj_type x)) seen) eqn:E; [apply IH|]. rewrite IH. cbn [app]. f_equal. f_equal.
    match goal with |- (if ?a then _ else _) = (if ?b then _ else _) => assert (G : a = b); [|rewrite G; reflexivity] end.
    apply eq_true_iff_eq. rewrite !existsb_type. rewrite !in_app_iff. cbn. rewrite in_app_iff. cbn. tauto.
Qed.
Lemma kinds_in l : forall seen t, In t (kinds seen l) <-> (In t (map obj_type l) /\ ~ In t seen).
Proof.
  induction l as [|x l IH]; intros seen t; cbn [kinds map]; [cbn; tauto|].
  destruct (existsb (otype_eqb (obj_type x)) seen) eqn:E.
  - apply existsb_type in E. rewrite IH. cbn. split; [tauto|]. intros [[<-|H] N]; [tauto|tauto].
  - apply existsb_type_false in E. cbn [In]. rewrite IH. cbn [In]. split.
    + intros [<-|[H N]]; [tauto|]. split; [tauto|]. tauto.
    + intros [[<-|H] N]; [tauto|]. destruct (otype_eqb_spec (obj_type x) t); [tauto|]. right. split; [exact H|]. tauto.
Qed.
Lemma kinds_nodup l : forall seen, NoDup (kinds seen l).
Proof.
  induction l as [|x l IH]; intros seen; cbn [kinds]; [constructor|]. destruct (existsb _ seen); [apply IH|].
  constructor; [|apply IH]. rewrite kinds_in. cbn. tauto.
Qed.

(** where a kind is *)
Fixpoint index (t : otype) (ks : list otype) : option nat :=
  match ks with [] => None | k :: r => if otype_eqb k t then Some O else option_map S (index t r) end.
Lemma index_none t ks : index t ks = None <-> ~ In t ks.
Proof.
  induction ks as [|k ks IH]; cbn; [tauto|]. destruct (otype_eqb_spec k t); [split; [discriminate|tauto]|].
  destruct (index t ks); cbn; split; intros H; try discriminate; try tauto; exfalso.
  assert (Some n0 = None) as C; [|discriminate C]. apply IH. tauto.
Qed.
Lemma index_snoc t ks k : index t (ks ++ [k]) =
  match index t ks with Some i => Some i | None => if otype_eqb k t then Some (List.length ks) else None end.
Proof.
  induction ks as [|x ks IH]; cbn; [destruct (otype_eqb k t); reflexivity|]. destruct (otype_eqb x t); [reflexivity|].
  rewrite IH. destruct (index t ks); cbn; [reflexivity|]. destruct (otype_eqb k t); reflexivity.
Qed.

Section Groups.
Context {G : Type}.
Lemma Forall2_upd (R R' : otype -> G -> Prop) t f : forall ks gs i, NoDup ks -> Forall2 R ks gs -> index t ks = Some i ->
  (forall k g, k <> t -> R k g -> R' k g) -> (forall g, R t g -> R' t (f g)) -> Forall2 R' ks (upd i f gs).
Proof.
  intros ks gs i ND F. revert i ND. induction F as [|k g ks gs Hk F IH]; intros i ND E HN HT; [discriminate|].
  cbn [index] in E. apply NoDup_cons_iff in ND as [N1 ND]. destruct (otype_eqb_spec k t) as [->|Hkt].
  - injection E as <-. cbn. constructor; [auto|]. clear - F N1 HN. induction F as [|k g ks gs Hk F IH]; constructor.
    + apply HN; [|exact Hk]. intros ->. apply N1. left; reflexivity.
    + apply IH. intros C. apply N1. right; exact C.
  - destruct (index t ks) as [j|]; [|discriminate]. injection E as <-. cbn. constructor; auto.
Qed.
End Groups.
Lemma Forall2_upd_o (R R' : otype -> pgroup -> Prop) t f : forall ks gs i, NoDup ks -> Forall2 R ks gs -> index t ks = Some i ->
  (forall k g, k <> t -> R k g -> R' k g) -> (forall g, nth_error gs i = Some g -> R t g -> exists g', f g = Ok g' /\ R' t g') ->
  exists gs', upd_o i f gs = Ok gs' /\ Forall2 R' ks gs'.
Proof.
  intros ks gs i ND F. revert i ND. induction F as [|k g ks gs Hk F IH]; intros i ND E HN HT; [discriminate|].
  cbn [index] in E. apply NoDup_cons_iff in ND as [N1 ND]. destruct (otype_eqb_spec k t) as [->|Hkt].
  - injection E as <-. destruct (HT g eq_refl Hk) as (g' & Eg & Hg). cbn. rewrite Eg. cbn. eexists; split; [reflexivity|].
    constructor; [exact Hg|]. clear - F N1 HN. induction F as [|k g ks gs Hk F IH]; constructor.
    + apply HN; [|exact Hk]. intros ->. apply N1. left; reflexivity.
    + apply IH. intros C. apply N1. right; exact C.
  - destruct (index t ks) as [j|]; [|discriminate]. injection E as <-. destruct (IH j ND eq_refl HN HT) as (gs' & Eg & Hg).
    cbn. rewrite Eg. cbn. eexists; split; [reflexivity|]. constructor; auto.
Qed.
Lemma Forall2_nth {A B} (R : A -> B -> Prop) : forall ks gs, Forall2 R ks gs -> forall i k, nth_error ks i = Some k ->
  exists g, nth_error gs i = Some g /\ R k g.
Proof.
  induction 1 as [|a b ks gs H F IH]; intros i k E; [destruct i; discriminate|]. destruct i; cbn in *; [injection E as ->; eauto|auto].
Qed.
Lemma Forall2_len {A B} (R : A -> B -> Prop) l l' : Forall2 R l l' -> List.length l = List.length l'.
Proof. induction 1; cbn; congruence. Qed.
Lemma index_some t ks : In t ks -> exists i, index t ks = Some i.
Proof. intros H. destruct (index t ks) as [i|] eqn:E; [eauto|]. apply index_none in E. contradiction. Qed.
Lemma index_nth t ks : forall i, index t ks = Some i -> nth_error ks i = Some t.
Proof.
  induction ks as [|k ks IH]; intros i E; [discriminate|]. cbn in E. destruct (otype_eqb_spec k t) as [->|H].
  - injection E as <-. reflexivity.
  - destruct (index t ks); [|discriminate]. injection E as <-. cbn. auto.
Qed.

Section Write.
Variables (K : codec) (c : pcfg) (ec et : Z -> Z) (T : Z -> Prop).
Hypothesis HK : codec_ok K.
Hypothesis HC : forall x, in_i32 x -> lonlat2int (cf_gran c) (fix_to_double x) = Ok (ec x).
Hypothesis HT : forall t, T t -> timestamp2int (cf_dgran c) t = Ok (et t).

Notation info_rel := (info_rel c et).
Notation common_rel := (common_rel c et).
Notation node_rel := (node_rel c ec et).
Notation way_rel := (way_rel c et).
Notation rel_rel := (rel_rel c et).
Notation dinfo_rel := (dinfo_rel c et).
Notation dense_rel := (dense_rel c ec et).

(* ---- relations are monotone ---- *)
Section Mono.
Variables (R R' : Z -> string -> Prop).
Hypothesis HR : forall k s, R k s -> R' k s.
Lemma common_mono a p : common_rel R a p -> common_rel R' a p.
Proof.
  intros (A & B & D). split; [exact A|]. split; [eapply tags_rel_mono; eauto|]. unfold PbfDecodeProofs.info_rel in *.
  destruct (cf_meta c); [|exact D]. destruct D as (u & Hu & E). eauto.
Qed.
Lemma node_mono n p : node_rel R n p -> node_rel R' n p.
Proof. intros (A & B). split; [apply common_mono; exact A|exact B]. Qed.
Lemma way_mono n p : way_rel R n p -> way_rel R' n p.
Proof. intros (A & B). split; [apply common_mono; exact A|exact B]. Qed.
Lemma rel_mono n p : rel_rel R n p -> rel_rel R' n p.
Proof. intros (A & B & D). split; [apply common_mono; exact A|]. split; [eapply Forall2_mono; eauto|exact D]. Qed.
Lemma kv_mono a kv : kv_rel R a kv -> kv_rel R' a kv.
Proof. intros (ks & vs & H & E). exists ks, vs. split; [eapply tags_rel_mono; eauto|exact E]. Qed.
Lemma dense_mono (U U' : list Z -> list string -> Prop) ns d : (forall a b, U a b -> U' a b) -> dense_rel R U ns d -> dense_rel R' U' ns d.
Proof.
  intros HU (D1 & D1' & D2 & D2' & D3 & D3' & (kvs & D4 & D4') & D5). unfold PbfDecodeProofs.dense_rel. repeat (split; [assumption|]).
  split; [exists kvs; split; [exact D4|]; eapply Forall2_mono; [|exact D4']; intros; apply kv_mono; assumption|].
  destruct (cf_meta c); [|exact D5]. destruct D5 as [(I1 & I2 & I2' & I3 & I3' & I4 & I5 & I6) D6]. split; [|exact D6].
  unfold PbfDecodeProofs.dinfo_rel. repeat (split; [assumption|]). split; [apply HU; exact I5|exact I6].
Qed.
End Mono.

Definition the_dense (g : pgroup) : pdense := match g_dense g with Some d => d | None => dense_new end.
Definition group_rel (R : Z -> string -> Prop) (U : list Z -> list string -> Prop) (l : list object) (t : otype) (g : pgroup) : Prop :=
  match t with
  | NODE => g_ways g = [] /\ g_rels g = [] /\
      if cf_dense c then g_nodes g = [] /\ dense_rel R U (nodes_of l) (the_dense g) /\ (nodes_of l <> [] -> g_dense g <> None)
      else g_dense g = None /\ Forall2 (node_rel R) (nodes_of l) (g_nodes g)
  | WAY => g_nodes g = [] /\ g_dense g = None /\ g_rels g = [] /\ Forall2 (way_rel R) (ways_of l) (g_ways g)
  | RELATION => g_nodes g = [] /\ g_dense g = None /\ g_ways g = [] /\ Forall2 (rel_rel R) (rels_of l) (g_rels g)
  | _ => False
  end.
Lemma group_mono (R R' : Z -> string -> Prop) (U U' : list Z -> list string -> Prop) l t g : (forall k s, R k s -> R' k s) -> (forall a b, U a b -> U' a b) ->
  group_rel R U l t g -> group_rel R' U' l t g.
Proof.
  intros HR HU. destruct t; cbn; try tauto.
  - intros (A & B & D). repeat (split; [assumption|]). destruct (cf_dense c).
    + destruct D as (D1 & D2 & D3). repeat (split; [assumption|]). split; [eapply dense_mono; eauto|exact D3].
    + destruct D as (D1 & D2). split; [assumption|]. eapply Forall2_mono; [|exact D2]. intros; eapply node_mono; eauto.
  - intros (A & B & D & E). repeat (split; [assumption|]). eapply Forall2_mono; [|exact E]. intros; eapply way_mono; eauto.
  - intros (A & B & D & E). repeat (split; [assumption|]). eapply Forall2_mono; [|exact E]. intros; eapply rel_mono; eauto.
Qed.
(** other kinds of objects do not matter *)
Lemma group_other R U l o t g : obj_type o <> t -> group_rel R U l t g -> group_rel R U (l ++ [o]) t g.
Proof.
  intros N. destruct t; cbn; try tauto.
  - rewrite nodes_app. destruct o as [n|y|y]; [cbn in N; congruence| |]; cbn [nodes_of flat_map]; rewrite app_nil_r; tauto.
  - rewrite ways_app. destruct o as [n|y|y]; [|cbn in N; congruence|]; cbn [ways_of flat_map]; rewrite app_nil_r; tauto.
  - rewrite rels_app. destruct o as [n|y|y]; [| |cbn in N; congruence]; cbn [rels_of flat_map]; rewrite app_nil_r; tauto.
Qed.
Lemma group_fresh (R : Z -> string -> Prop) (U : list Z -> list string -> Prop) l t : (t = NODE \/ t = WAY \/ t = RELATION) -> ~ In t (map obj_type l) ->
  (cf_meta c = true -> U [] []) -> group_rel R U l t group_new.
Proof.
  intros Ht N HU. destruct Ht as [->|[->| ->]]; cbn.
  - assert (E : nodes_of l = []).
    { destruct (nodes_of l) as [|n r] eqn:E; [reflexivity|]. exfalso. apply N. apply in_map_iff. exists (ONode n). split; [reflexivity|].
      apply nodes_in. rewrite E. left; reflexivity. }
    rewrite E. repeat (split; [reflexivity|]). destruct (cf_dense c); (split; [reflexivity|]); [|constructor]. split; [|congruence].
    cbn. repeat (split; [reflexivity || constructor|]). split; [exists []; split; [reflexivity|constructor]|].
    destruct (cf_meta c) eqn:EM; [|reflexivity]. split; [|congruence]. cbn. repeat (split; [reflexivity || constructor|]).
    split; [apply HU; reflexivity|]. destruct (cf_visible c); reflexivity.
  - assert (E : ways_of l = []).
    { destruct (ways_of l) as [|n r] eqn:E; [reflexivity|]. exfalso. apply N. apply in_map_iff. exists (OWay n). split; [reflexivity|].
      apply ways_in. rewrite E. left; reflexivity. }
    rewrite E. repeat (split; [reflexivity|]). constructor.
  - assert (E : rels_of l = []).
    { destruct (rels_of l) as [|n r] eqn:E; [reflexivity|]. exfalso. apply N. apply in_map_iff. exists (ORel n). split; [reflexivity|].
      apply rels_in. rewrite E. left; reflexivity. }
    rewrite E. repeat (split; [reflexivity|]). constructor.
Qed.

(* ---- recording the texts ---- *)
Definition attr_texts (a : attrs) : list string := tag_texts (o_tags a) ++ (if cf_meta c then [o_user a] else []).
Definition recorded (o : object) : list string :=
  attr_texts (obj_attrs o) ++ match o with ORel r => map m_role (r_members r) | _ => [] end.
Lemma recorded_incl o s : In s (recorded o) -> In s (texts o).
Proof.
  unfold recorded, attr_texts, texts. rewrite !in_app_iff. intros [[H|H]|H]; [tauto| |tauto]. destruct (cf_meta c); [tauto|destruct H].
Qed.

Lemma apply_common_ok a L t : T (o_timestamp a) \/ cf_meta c = false -> st_inv L t -> room (L ++ attr_texts a) ->
  exists t' pc, apply_common c a t = Ok (t', pc) /\ st_inv (L ++ attr_texts a) t' /\ ext t t' /\ common_rel (stands t') a pc.
Proof.
  intros HTt I R. unfold apply_common, attr_texts in *. destruct (record_tags (o_tags a) t) as [[t1 ks] vs] eqn:E1.
  rewrite app_assoc in *.
  destruct (record_tags_stands _ L t t1 ks vs I (room_app_l _ _ R) E1) as (I1 & S1 & X1).
  unfold PbfDecodeProofs.common_rel, PbfDecodeProofs.info_rel.
  destruct (cf_meta c) eqn:EM.
  - destruct HTt as [HTt|]; [|discriminate]. rewrite (HT _ HTt). cbn [obind].
    destruct (record_string (o_user a) t1) as [t2 u] eqn:E2. destruct (record_stands _ _ t1 t2 u I1 R E2) as (I2 & S2 & X2).
    do 2 eexists. split; [reflexivity|]. split; [exact I2|]. split; [eauto using ext_trans|]. cbn.
    split; [reflexivity|]. split; [eapply tags_rel_mono; [|exact S1]; exact X2|]. exists u. split; [exact S2|reflexivity].
  - rewrite app_nil_r in *. do 2 eexists. split; [reflexivity|]. split; [exact I1|]. split; [exact X1|]. cbn. auto.
Qed.

Lemma encode_members_ok ms : forall m L t t2 ks ds ys, st_inv L t -> room (L ++ map m_role ms) ->
  encode_members m ms t = Ok (t2, ks, ds, ys, None) ->
  st_inv (L ++ map m_role ms) t2 /\ ext t t2 /\ Forall2 (stands t2) ks (map m_role ms) /\
  ds = deltas m (map m_ref ms) /\ Forall in_i64 ds /\ Forall2 (fun t m => member_code (m_type m) = Some t) ys ms.
Proof.
  induction ms as [|x ms IH]; intros m L t t2 ks ds ys I R E; cbn [encode_members map] in *.
  - injection E as <- <- <- <-. rewrite app_nil_r. split; [exact I|]. split; [apply ext_refl|]. repeat split; constructor.
  - destruct (record_string (m_role x) t) as [t1 k] eqn:E1.
    destruct (record_stands L (m_role x) t t1 k I) as (I1 & S1 & X1); [|exact E1|].
    { eapply room_incl; [|exact R]. intros s. rewrite !in_app_iff. cbn. tauto. }
    destruct (delta_update I64 m (m_ref x)) as [[m' d]|?| |] eqn:ED; cbn [obind] in E; try discriminate.
    apply delta_i64 in ED as (-> & -> & Hd). destruct (member_code (m_type x)) as [y|] eqn:EY; [|discriminate].
    destruct (encode_members (m_ref x) ms t1) as [[[[[t3 ks'] ds'] ys'] e]|?| |] eqn:EM; cbn [obind] in E; try discriminate.
    injection E as <- <- <- <- ->.
    destruct (IH (m_ref x) (L ++ [m_role x]) t1 t3 ks' ds' ys' I1) as (I2 & X2 & S2 & D2 & F2 & Y2); [|exact EM|].
    { rewrite <- app_assoc. exact R. }
    rewrite <- app_assoc in I2. split; [exact I2|]. split; [eauto using ext_trans|]. cbn [deltas].
    split; [constructor; [apply X2; exact S1|exact S2]|]. split; [congruence|]. split; constructor; assumption.
Qed.

(* ---- the invariant ---- *)
Record winv (l : list object) (w : pwriter) : Prop := {
  wi_st : st_inv (flat_map recorded l) (w_st w);
  wi_contents : w_contents w = Z.of_nat (List.length l);
  wi_size : l = [] -> w_size w = 0;
  wi_groups : Forall2 (group_rel (stands (w_st w)) (Forall2 (stands (w_st w))) l) (kinds [] l) (w_groups w);
  wi_ptr : forall t, w_ptr t w = index t (kinds [] l);
  wi_delta : cf_dense c = true ->
    w_did w = last (map (fun n => o_id (n_attrs n)) (nodes_of l)) 0 /\
    w_dlat w = last (map (fun n => ec (py (n_pos n))) (nodes_of l)) 0 /\
    w_dlon w = last (map (fun n => ec (px (n_pos n))) (nodes_of l)) 0 /\
    (cf_meta c = true ->
      w_dts w = last (map (fun n => et (o_timestamp (n_attrs n))) (nodes_of l)) 0 /\
      w_dcs w = last (map (fun n => o_changeset (n_attrs n)) (nodes_of l)) 0 /\
      w_duid w = last (map (fun n => o_uid (n_attrs n)) (nodes_of l)) 0);
  wi_sid : w_dsid w = 0 }.
Lemma winv_new f : winv [] (pwriter_new f).
Proof.
  constructor; cbn; try reflexivity.
  - apply st_new_inv.
  - constructor.
  - intros []; reflexivity.
  - intros _. repeat split.
Qed.

(** after the group for the next object is there *)
Record winv2 (l : list object) (o : object) (w : pwriter) : Prop := {
  w2_st : st_inv (flat_map recorded l) (w_st w);
  w2_contents : w_contents w = Z.of_nat (List.length l) + 1;
  w2_groups : Forall2 (group_rel (stands (w_st w)) (Forall2 (stands (w_st w))) l) (kinds [] (l ++ [o])) (w_groups w);
  w2_ptr : forall t, w_ptr t w = index t (kinds [] (l ++ [o]));
  w2_delta : cf_dense c = true ->
    w_did w = last (map (fun n => o_id (n_attrs n)) (nodes_of l)) 0 /\
    w_dlat w = last (map (fun n => ec (py (n_pos n))) (nodes_of l)) 0 /\
    w_dlon w = last (map (fun n => ec (px (n_pos n))) (nodes_of l)) 0 /\
    (cf_meta c = true ->
      w_dts w = last (map (fun n => et (o_timestamp (n_attrs n))) (nodes_of l)) 0 /\
      w_dcs w = last (map (fun n => o_changeset (n_attrs n)) (nodes_of l)) 0 /\
      w_duid w = last (map (fun n => o_uid (n_attrs n)) (nodes_of l)) 0);
  w2_sid : w_dsid w = 0 }.
Lemma obj_type_three o : obj_type o = NODE \/ obj_type o = WAY \/ obj_type o = RELATION.
Proof. destruct o; auto. Qed.
Lemma need_group_ok l o w : winv l w -> Z.of_nat (List.length l) < 8000 ->
  winv2 l o (need_group (obj_type o) (with_count (to_u16 (w_contents w + 1)) w)).
Proof.
  intros I HL. destruct I as [I1 I2 I3 I4 I5 I6 I7].
  assert (EC : to_u16 (w_contents w + 1) = Z.of_nat (List.length l) + 1) by (unfold to_u16; rewrite I2; lia).
  unfold need_group. assert (EP : w_ptr (obj_type o) (with_count (to_u16 (w_contents w + 1)) w) = index (obj_type o) (kinds [] l)).
  { rewrite <- I5. destruct o; reflexivity. }
  rewrite EP. pose proof (kinds_snoc l o []) as KS. cbn [app] in KS.
  destruct (index (obj_type o) (kinds [] l)) as [i|] eqn:EI.
  - assert (Hin : In (obj_type o) (kinds [] l)).
    { destruct (in_dec (fun a b => match otype_eqb_spec a b with ReflectT _ e => left e | ReflectF _ n => right n end) (obj_type o) (kinds [] l)) as [H|H]; [exact H|].
      apply index_none in H. congruence. }
    apply existsb_type in Hin. rewrite Hin, app_nil_r in KS.
    constructor; cbn [with_count w_st w_contents w_groups w_dsid w_did w_dlat w_dlon w_dts w_dcs w_duid]; rewrite ?KS; auto.
  - apply index_none in EI. pose proof EI as EI'. apply existsb_type_false in EI. rewrite EI in KS.
    pose proof (Forall2_len _ _ _ I4) as LG.
    constructor; cbn [with_count w_st w_contents w_groups w_dsid w_did w_dlat w_dlon w_dts w_dcs w_duid]; rewrite ?KS; auto.
    + apply Forall2_app; [exact I4|]. constructor; [|constructor]. apply group_fresh; [apply obj_type_three| |intros _; constructor].
      rewrite kinds_in in EI'. intros C. apply EI'. split; [exact C|tauto].
    + intros t. rewrite index_snoc, <- I5, LG.
      assert (EN : w_ptr (obj_type o) w = None) by (rewrite I5; apply index_none; exact EI').
      destruct t, o; cbn [w_ptr obj_type otype_eqb with_count w_pn w_pw w_pr] in *; rewrite ?EN; try reflexivity;
        match goal with |- ?x = match ?x with _ => _ end => destruct x; reflexivity | _ => idtac end.
Qed.
Lemma need_group_fd t w : w_fd (need_group t w) = w_fd w.
Proof. unfold need_group. destruct (w_ptr t w); reflexivity. Qed.

Definition obj_fine (o : object) : Prop := object_ok o /\ T (o_timestamp (obj_attrs o)).
Lemma kinds_has l o : In (obj_type o) (kinds [] (l ++ [o])).
Proof. apply kinds_in. split; [|cbn; tauto]. rewrite map_app. apply in_or_app. right; left; reflexivity. Qed.
Lemma recorded_snoc l o : flat_map recorded (l ++ [o]) = flat_map recorded l ++ recorded o.
Proof. rewrite flat_map_app. cbn. rewrite app_nil_r. reflexivity. Qed.
Lemma len_snoc {A} (l : list A) x : Z.of_nat (List.length (l ++ [x])) = Z.of_nat (List.length l) + 1.
Proof. rewrite app_length. cbn. lia. Qed.
Lemma snoc_not_nil {A} (l : list A) x : l ++ [x] <> [].
Proof. destruct l; discriminate. Qed.

(** one group is changed, the others keep their meaning *)
Lemma groups_step l o w t' f i : winv2 l o w -> ext (w_st w) t' -> w_ptr (obj_type o) w = Some i ->
  (forall g, group_rel (stands t') (Forall2 (stands t')) l (obj_type o) g ->
             group_rel (stands t') (Forall2 (stands t')) (l ++ [o]) (obj_type o) (f g)) ->
  Forall2 (group_rel (stands t') (Forall2 (stands t')) (l ++ [o])) (kinds [] (l ++ [o])) (upd i f (w_groups w)).
Proof.
  intros I X E H. rewrite (w2_ptr _ _ _ I) in E. eapply Forall2_upd; [apply kinds_nodup|exact (w2_groups _ _ _ I)|exact E| |].
  - intros k g Hk Hg. apply group_other; [congruence|]. eapply group_mono; [| |exact Hg]; [exact X|]. intros a b. apply Forall2_mono. exact X.
  - intros g Hg. apply H. eapply group_mono; [| |exact Hg]; [exact X|]. intros a b. apply Forall2_mono. exact X.
Qed.

Lemma w2_index l o w : winv2 l o w -> exists i, w_ptr (obj_type o) w = Some i.
Proof. intros I. rewrite (w2_ptr _ _ _ I). apply index_some, kinds_has. Qed.

Lemma write_node_step l n w : cf_dense c = false -> winv2 l (ONode n) w -> obj_fine (ONode n) ->
  room (flat_map recorded (l ++ [ONode n])) ->
  exists w', write_node c n w = Ok w' /\ winv (l ++ [ONode n]) w' /\ w_fd w' = w_fd w.
Proof.
  intros HD I [[Ha [Hx Hy]] HTt] R. cbn [obj_attrs] in *. rewrite recorded_snoc in R. unfold recorded at 2 in R. cbn [obj_attrs] in R.
  rewrite app_nil_r in R.
  destruct (apply_common_ok (n_attrs n) _ (w_st w) (or_introl HTt) (w2_st _ _ _ I) R) as (t' & pc & E & I' & X & C).
  destruct (w2_index _ _ _ I) as (i & Ei). cbn [w_ptr obj_type] in Ei.
  unfold write_node, pos_lon, pos_lat. rewrite E. cbn [obind]. rewrite (HC _ Hx), (HC _ Hy). cbn [obind]. rewrite Ei.
  eexists. split; [reflexivity|]. split; [|reflexivity]. destruct I as [J1 J2 J3 J4 J5 J6].
  constructor; cbn [with_st with_groups w_st w_contents w_size w_groups w_dsid w_did w_dlat w_dlon w_dts w_dcs w_duid].
  - rewrite recorded_snoc. unfold recorded at 2. cbn [obj_attrs]. rewrite app_nil_r. exact I'.
  - rewrite len_snoc. exact J2.
  - intros C0. destruct (snoc_not_nil _ _ C0).
  - apply groups_step; [constructor; assumption|exact X|exact Ei|]. cbn [group_rel obj_type]. rewrite HD. intros g (G1 & G2 & G3 & G4). cbn.
    rewrite nodes_app. cbn. repeat (split; [assumption|]). apply Forall2_app; [exact G4|]. constructor; [|constructor].
    split; [exact C|]. split; reflexivity.
  - intros t. rewrite <- J4. destruct t; reflexivity.
  - congruence.
  - exact J6.
Qed.

(** the differences fit *)
Definition dense_room (n : node) (w : pwriter) : Prop :=
  in_i64 (o_id (n_attrs n) - w_did w) /\ in_i64 (ec (px (n_pos n)) - w_dlon w) /\ in_i64 (ec (py (n_pos n)) - w_dlat w) /\
  (cf_meta c = true -> in_i64 (et (o_timestamp (n_attrs n)) - w_dts w) /\ in_i64 (o_changeset (n_attrs n) - w_dcs w) /\
                       in_i64 (o_uid (n_attrs n) - w_duid w)).
Lemma delta_i64_ok m v : in_i64 (v - m) -> delta_update I64 m v = Ok (v, v - m).
Proof. intros H. unfold delta_update, isub. apply in_i64b_spec in H. rewrite H. reflexivity. Qed.

Lemma write_dense_room n w w' : obj_fine (ONode n) -> write_dense_node c n w = Ok w' -> dense_room n w.
Proof.
  intros [[Ha [Hx Hy]] HTt] E. cbn [obj_attrs] in *. unfold write_dense_node, pos_lon, pos_lat in E.
  destruct (delta_update I64 (w_did w) _) as [[did xid]|?| |] eqn:E1; cbn [obind] in E; try discriminate.
  apply delta_i64 in E1 as (-> & -> & R1). rewrite (HC _ Hx), (HC _ Hy) in E. cbn [obind] in E.
  destruct (delta_update I64 (w_dlon w) _) as [[dlon xlon]|?| |] eqn:E2; cbn [obind] in E; try discriminate.
  apply delta_i64 in E2 as (-> & -> & R2).
  destruct (delta_update I64 (w_dlat w) _) as [[dlat xlat]|?| |] eqn:E3; cbn [obind] in E; try discriminate.
  apply delta_i64 in E3 as (-> & -> & R3). destruct (record_tags _ _) as [[t1 ks] vs].
  split; [exact R1|]. split; [exact R2|]. split; [exact R3|]. intros HM. rewrite HM in E. rewrite (HT _ HTt) in E. cbn [obind] in E.
  destruct (delta_update I64 (w_dts w) _) as [[dts xts]|?| |] eqn:E4; cbn [obind] in E; try discriminate.
  apply delta_i64 in E4 as (-> & -> & R4).
  destruct (delta_update I64 (w_dcs w) _) as [[dcs xcs]|?| |] eqn:E5; cbn [obind] in E; try discriminate.
  apply delta_i64 in E5 as (-> & -> & R5).
  destruct (delta_update I64 (w_duid w) _) as [[duid xuid]|?| |] eqn:E6; cbn [obind] in E; try discriminate.
  apply delta_i64 in E6 as (-> & -> & R6). auto.
Qed.

Lemma write_dense_step l n w : cf_dense c = true -> winv2 l (ONode n) w -> obj_fine (ONode n) -> dense_room n w ->
  room (flat_map recorded (l ++ [ONode n])) ->
  exists w', write_dense_node c n w = Ok w' /\ winv (l ++ [ONode n]) w' /\ w_fd w' = w_fd w.
Proof.
  intros HD I [[Ha [Hx Hy]] HTt] (Rid & Rlon & Rlat & Rm) R. cbn [obj_attrs] in *. rewrite recorded_snoc in R. unfold recorded at 2 in R. cbn [obj_attrs] in R.
  rewrite app_nil_r in R. unfold attr_texts in R.
  destruct (w2_index _ _ _ I) as (i & Ei). cbn [w_ptr obj_type] in Ei.
  unfold write_dense_node, pos_lon, pos_lat. rewrite (delta_i64_ok _ _ Rid). cbn [obind]. rewrite (HC _ Hx), (HC _ Hy). cbn [obind].
  rewrite (delta_i64_ok _ _ Rlon), (delta_i64_ok _ _ Rlat). cbn [obind].
  destruct (record_tags (o_tags (n_attrs n)) (w_st w)) as [[t1 ks] vs] eqn:E1.
  rewrite app_assoc in R.
  destruct (record_tags_stands _ _ (w_st w) t1 ks vs (w2_st _ _ _ I) (room_app_l _ _ R) E1) as (I1 & S1 & X1).
  pose proof I as I0. destruct I as [J1 J2 J3 J4 J5 J6]. destruct (J5 HD) as (D1 & D2 & D3 & D4).
  assert (EXT : forall (f : node -> Z), map f (nodes_of (l ++ [ONode n])) = map f (nodes_of l) ++ [f n]) by (intros f; rewrite nodes_app, map_app; reflexivity).
  destruct (cf_meta c) eqn:EM.
  - rewrite (HT _ HTt). cbn [obind]. destruct (Rm eq_refl) as (Rts & Rcs & Ruid).
    rewrite (delta_i64_ok _ _ Rts). cbn [obind]. rewrite (delta_i64_ok _ _ Rcs). cbn [obind]. rewrite (delta_i64_ok _ _ Ruid). cbn [obind].
    destruct (record_string (o_user (n_attrs n)) t1) as [t2 u] eqn:E2. destruct (record_stands _ _ t1 t2 u I1 R E2) as (I2 & S2 & X2).
    cbn [obind]. rewrite Ei. destruct (D4 eq_refl) as (D5 & D6 & D7). eexists. split; [reflexivity|]. split; [|reflexivity].
    constructor; cbn [w_st w_contents w_size w_groups w_dsid w_did w_dlat w_dlon w_dts w_dcs w_duid].
    + rewrite recorded_snoc. unfold recorded at 2, attr_texts. cbn [obj_attrs]. rewrite EM, app_nil_r, app_assoc. exact I2.
    + rewrite len_snoc. exact J2.
    + intros C0. destruct (snoc_not_nil _ _ C0).
    + apply groups_step; [exact I0|eauto using ext_trans|exact Ei|]. cbn [group_rel obj_type]. rewrite HD.
      intros g (G1 & G2 & G3 & G4 & G5). cbn [g_ways g_rels g_nodes g_dense].
      repeat (split; [assumption|]). split; [|congruence].
      unfold the_dense at 1. cbn [g_dense]. fold (the_dense g). set (d := the_dense g) in *.
      destruct G4 as (H1 & H1' & H2 & H2' & H3 & H3' & (kvs & H4 & H4') & H5). rewrite EM in H5. destruct H5 as [H5 _].
      unfold PbfDecodeProofs.dense_rel. cbn [dn_id dn_lat dn_lon dn_kv dn_info]. rewrite !EXT, !deltas_snoc. rewrite <- D1, <- D2, <- D3, <- H1, <- H2, <- H3, EM.
      split; [reflexivity|]. split; [apply Forall_app; auto|]. split; [reflexivity|]. split; [apply Forall_app; auto|].
      split; [reflexivity|]. split; [apply Forall_app; auto|]. split.
      * exists (kvs ++ [interleave ks vs ++ [0]]). rewrite concat_app. cbn [List.concat]. rewrite app_nil_r, H4. split; [reflexivity|].
        rewrite nodes_app. apply Forall2_app; [exact H4'|]. constructor; [|constructor]. exists ks, vs. split; [|reflexivity].
        eapply tags_rel_mono; [|exact S1]. exact X2.
      * split; [|discriminate]. unfold the_dinfo at 1. cbn [dn_info]. fold (the_dinfo d).
        destruct H5 as (V1 & V2 & V2' & V3 & V3' & V4 & V5 & V6). unfold PbfDecodeProofs.dinfo_rel.
        change (match dn_info d with Some i0 => i0 | None => dinfo_new end) with (the_dinfo d).
        cbn [di_version di_timestamp di_changeset di_uid di_user_sid di_visible].
        rewrite nodes_app, map_app. cbn [nodes_of flat_map app map]. rewrite !map_app. cbn [map]. rewrite !deltas_snoc.
        rewrite !map_map in *. rewrite <- D5, <- D6, <- D7, <- V1, <- V2, <- V3.
        split; [reflexivity|]. split; [reflexivity|]. split; [apply Forall_app; auto|]. split; [reflexivity|]. split; [apply Forall_app; auto|].
        split; [rewrite map_app, V4; reflexivity|]. split; [apply Forall2_app; [exact V5|constructor; [exact S2|constructor]]|].
        rewrite V6. destruct (cf_visible c); reflexivity.
    + intros t. rewrite <- J4. destruct t; cbn [w_ptr w_pn w_pw w_pr]; congruence.
    + intros _. rewrite !EXT, !last_snoc. repeat split.
    + exact J6.
  - cbn [obind]. rewrite Ei. rewrite app_nil_r in *. eexists. split; [reflexivity|]. split; [|reflexivity].
    constructor; cbn [w_st w_contents w_size w_groups w_dsid w_did w_dlat w_dlon w_dts w_dcs w_duid].
    + rewrite recorded_snoc. unfold recorded at 2, attr_texts. cbn [obj_attrs]. rewrite EM, !app_nil_r. exact I1.
    + rewrite len_snoc. exact J2.
    + intros C0. destruct (snoc_not_nil _ _ C0).
    + apply groups_step; [exact I0|exact X1|exact Ei|]. cbn [group_rel obj_type]. rewrite HD.
      intros g (G1 & G2 & G3 & G4 & G5). cbn [g_ways g_rels g_nodes g_dense].
      repeat (split; [assumption|]). split; [|congruence].
      unfold the_dense at 1. cbn [g_dense]. fold (the_dense g). set (d := the_dense g) in *.
      destruct G4 as (H1 & H1' & H2 & H2' & H3 & H3' & (kvs & H4 & H4') & H5). rewrite EM in H5.
      unfold PbfDecodeProofs.dense_rel. cbn [dn_id dn_lat dn_lon dn_kv dn_info]. rewrite !EXT, !deltas_snoc. rewrite <- D1, <- D2, <- D3, <- H1, <- H2, <- H3, EM.
      split; [reflexivity|]. split; [apply Forall_app; auto|]. split; [reflexivity|]. split; [apply Forall_app; auto|].
      split; [reflexivity|]. split; [apply Forall_app; auto|]. split; [|exact H5].
      exists (kvs ++ [interleave ks vs ++ [0]]). rewrite concat_app. cbn [List.concat]. rewrite app_nil_r, H4. split; [reflexivity|].
      rewrite nodes_app. apply Forall2_app; [exact H4'|]. constructor; [|constructor]. exists ks, vs. split; [exact S1|reflexivity].
    + intros t. rewrite <- J4. destruct t; cbn [w_ptr w_pn w_pw w_pr]; congruence.
    + intros _. rewrite !EXT, !last_snoc. repeat split; congruence.
    + exact J6.
Qed.

Lemma write_way_step l y w xs : winv2 l (OWay y) w -> obj_fine (OWay y) -> encode_refs 0 (map wn_ref (w_nodes y)) = Ok xs ->
  room (flat_map recorded (l ++ [OWay y])) ->
  exists w', write_way K c y w = Ok w' /\ winv (l ++ [OWay y]) w' /\ w_fd w' = w_fd w.
Proof.
  intros I [[Ha Hn] HTt] ER R. cbn [obj_attrs] in *. rewrite recorded_snoc in R. unfold recorded at 2 in R. cbn [obj_attrs] in R.
  rewrite app_nil_r in R.
  destruct (apply_common_ok (w_attrs y) _ (w_st w) (or_introl HTt) (w2_st _ _ _ I) R) as (t' & pc & E & I' & X & C).
  destruct (w2_index _ _ _ I) as (i & Ei). cbn [w_ptr obj_type] in Ei.
  unfold write_way. rewrite E. cbn [obind]. change delta_new with 0. rewrite ER. cbn [obind]. rewrite Ei.
  eexists. split; [reflexivity|]. split; [|reflexivity]. destruct I as [J1 J2 J3 J4 J5 J6].
  constructor; cbn [add_size with_st with_groups w_st w_contents w_size w_groups w_dsid w_did w_dlat w_dlon w_dts w_dcs w_duid].
  - rewrite recorded_snoc. unfold recorded at 2. cbn [obj_attrs]. rewrite app_nil_r. exact I'.
  - rewrite len_snoc. exact J2.
  - intros C0. destruct (snoc_not_nil _ _ C0).
  - apply groups_step; [constructor; assumption|exact X|exact Ei|]. cbn [group_rel obj_type]. intros g (G1 & G2 & G3 & G4). cbn.
    rewrite ways_app. cbn. repeat (split; [assumption|]). apply Forall2_app; [exact G4|]. constructor; [|constructor].
    apply encode_refs_deltas in ER as [ER EF]. split; [exact C|]. split; assumption.
  - intros t. rewrite <- J4. destruct t; reflexivity.
  - rewrite nodes_app. cbn [nodes_of flat_map]. rewrite app_nil_r. exact J5.
  - exact J6.
Qed.
Lemma write_way_room y w w' : obj_fine (OWay y) -> write_way K c y w = Ok w' -> exists xs, encode_refs 0 (map wn_ref (w_nodes y)) = Ok xs.
Proof.
  intros _ E. unfold write_way in E. destruct (apply_common c (w_attrs y) (w_st w)) as [[t pc]|?| |]; cbn [obind] in E; try discriminate.
  change delta_new with 0 in E. destruct (encode_refs 0 _); cbn [obind] in E; try discriminate. eauto.
Qed.

Lemma write_rel_step l y w : winv2 l (ORel y) w -> obj_fine (ORel y) ->
  room (flat_map recorded (l ++ [ORel y])) ->
  forall r, write_relation K c y w = r ->
    (exists w', r = Ok (w', None) /\ winv (l ++ [ORel y]) w' /\ w_fd w' = w_fd w) \/
    (exists w' e, r = Ok (w', Some e)) \/ (forall x, r <> Ok x).
Proof.
  intros I [[Ha Hm] HTt] R r Er. cbn [obj_attrs] in *. rewrite recorded_snoc in R. unfold recorded at 2 in R. cbn [obj_attrs] in R.
  rewrite app_assoc in R.
  destruct (apply_common_ok (r_attrs y) _ (w_st w) (or_introl HTt) (w2_st _ _ _ I) (room_app_l _ _ R)) as (t' & pc & E & I' & X & C).
  destruct (w2_index _ _ _ I) as (i & Ei). cbn [w_ptr obj_type] in Ei.
  unfold write_relation in Er. rewrite E in Er. cbn [obind] in Er. change delta_new with 0 in Er.
  destruct (encode_members 0 (r_members y) t') as [[[[[t2 ks] ds] ys] [e|]]|?| |] eqn:EM; cbn [obind] in Er; rewrite ?Ei in Er.
  - right; left. eauto.
  - left. destruct (encode_members_ok _ _ _ _ _ _ _ _ I' R EM) as (I2 & X2 & S2 & D2 & F2 & Y2).
    eexists. split; [symmetry; exact Er|]. split; [|reflexivity]. destruct I as [J1 J2 J3 J4 J5 J6].
    constructor; cbn [add_size with_st with_groups w_st w_contents w_size w_groups w_dsid w_did w_dlat w_dlon w_dts w_dcs w_duid].
    + rewrite recorded_snoc. unfold recorded at 2. cbn [obj_attrs]. rewrite app_assoc. exact I2.
    + rewrite len_snoc. exact J2.
    + intros C0. destruct (snoc_not_nil _ _ C0).
    + apply groups_step; [constructor; assumption|eauto using ext_trans|exact Ei|]. cbn [group_rel obj_type]. intros g (G1 & G2 & G3 & G4). cbn.
      rewrite rels_app. cbn. repeat (split; [assumption|]). apply Forall2_app; [exact G4|]. constructor; [|constructor].
      split; [eapply common_mono; [|exact C]; exact X2|]. cbn. auto.
    + intros t. rewrite <- J4. destruct t; reflexivity.
    + rewrite nodes_app. cbn [nodes_of flat_map]. rewrite app_nil_r. exact J5.
    + exact J6.
  - right; right. intros x. congruence.
  - right; right. intros x. congruence.
  - right; right. intros x. congruence.
Qed.
End Write.
