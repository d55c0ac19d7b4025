(** What the reader makes of messages that encode objects. *)
From Verif Require Import Base.Prelude Base.SMap Model.Osm Model.Float Model.Utils Model.Attr Model.OsmFile Model.Handler Model.Pbf
  Spec.UtilsSpec Spec.TagsSpec Spec.HandlerSpec Spec.PbfSpec Proofs.UtilsProofs Proofs.PbfStringProofs.

(* ---- deltas ---- *)
Fixpoint deltas (m : Z) (l : list Z) : list Z :=
  match l with [] => [] | x :: r => (x - m) :: deltas x r end.
Lemma last_ne {A} (l : list A) : forall x d d', last (x :: l) d = last (x :: l) d'.
Proof. induction l as [|y l IH]; intros; [reflexivity|]. change (last (y :: l) d = last (y :: l) d'). apply IH. Qed.
Lemma last_cons {A} (y m : A) l : last l y = last (y :: l) m.
Proof. destruct l; [reflexivity|]. change (last (a :: l) y = last (a :: l) m). apply last_ne. Qed.
Lemma deltas_snoc l : forall m x, deltas m (l ++ [x]) = deltas m l ++ [x - last l m].
Proof.
  induction l as [|y l IH]; intros m x; [reflexivity|]. cbn [app deltas]. rewrite IH. rewrite (last_cons y m). reflexivity.
Qed.
Lemma last_snoc {A} (l : list A) x d : last (l ++ [x]) d = x.
Proof. induction l as [|y l IH]; [reflexivity|]. cbn [app]. destruct (l ++ [x]) eqn:E; [destruct l; discriminate|]. exact IH. Qed.
Lemma deltas_length l : forall m, List.length (deltas m l) = List.length l.
Proof. induction l; intros; cbn; auto. Qed.

Lemma encode_refs_deltas rs : forall m xs, encode_refs m rs = Ok xs -> xs = deltas m rs /\ Forall in_i64 xs.
Proof.
  induction rs as [|r rs IH]; intros m xs E; cbn [encode_refs] in E.
  - injection E as <-. split; [reflexivity|constructor].
  - unfold delta_update, isub in E. destruct (in_i64b (r - m)) eqn:B; cbn [obind] in E; [|discriminate].
    bind_inv E. injection E as <-. destruct (IH r a E0) as [-> F]. split; [reflexivity|].
    constructor; [apply in_i64b_spec; exact B|exact F].
Qed.
Lemma delta_i64 m v m' x : delta_update I64 m v = Ok (m', x) -> m' = v /\ x = v - m /\ in_i64 x.
Proof.
  unfold delta_update, isub. destruct (in_i64b (v - m)) eqn:B; cbn [obind]; [|discriminate].
  intros [= <- <-]. repeat split; apply in_i64b_spec in B; apply B.
Qed.

Lemma wrap_i64 x : in_i64 x -> to_i64 (to_u64 x) = x.
Proof. unfold in_i64, to_i64, to_u64, int64_min, int64_max. intros. lia. Qed.
Lemma u64_add a b : to_u64 (to_u64 a + (b - a)) = to_u64 b.
Proof. unfold to_u64. rewrite Zplus_mod_idemp_l. f_equal. lia. Qed.
Lemma to_u64_0 : to_u64 0 = 0.
Proof. reflexivity. Qed.

Lemma decode_refs_deltas rs : Forall in_i64 rs -> forall m ns,
  decode_refs (to_u64 m) (deltas m rs) ns = ns ++ map (fun r => mkWN r undef_pos) rs.
Proof.
  induction 1 as [|r rs Hr _ IH]; intros m ns; cbn [deltas decode_refs]; [rewrite app_nil_r; reflexivity|].
  rewrite u64_add, IH, (wrap_i64 r Hr), <- app_assoc. reflexivity.
Qed.

(* ---- strings ---- *)
Lemma cstr_id s : no_nul s -> cstr s = s.
Proof.
  induction s as [|a s IH]; cbn; [reflexivity|]. intros [H1 H2]. destruct (Ascii.eqb_spec a zero); [congruence|]. rewrite IH; auto.
Qed.
Lemma rep_nth {A} (l : list A) i : 0 <= i -> rep l i = match nth_error l (Z.to_nat i) with Some x => Ok x | None => UB end.
Proof. intros H. unfold rep. assert (G : (i <? 0) = false) by lia. rewrite G. reflexivity. Qed.
Lemma str_final tbl j s : final_id tbl j s -> no_nul s -> str tbl j = Ok s.
Proof. intros [R N] Hs. unfold str. rewrite rep_nth by lia. rewrite N. cbn [obind]. rewrite cstr_id; auto. Qed.

Lemma decode_tags_ok tbl ts : Forall c_tag ts -> forall ks vs acc, tags_rel (final_id tbl) ts ks vs ->
  decode_tags tbl ks vs acc = Ok (acc ++ ts).
Proof.
  induction 1 as [|x ts [Hk Hv] _ IH]; intros ks vs acc [A B]; cbn in A, B;
    inversion A as [|k ? ks1 ? Fk A1]; inversion B as [|v ? vs1 ? Fv B1]; subst; cbn [decode_tags].
  - rewrite app_nil_r. reflexivity.
  - rewrite (str_final _ _ _ Fk Hk), (str_final _ _ _ Fv Hv). cbn [obind]. rewrite IH by (split; assumption).
    unfold tl_add. rewrite <- app_assoc. destruct x; reflexivity.
Qed.
Lemma decode_kv_ok tbl ts : Forall c_tag ts -> forall ks vs acc rest fuel, tags_rel (final_id tbl) ts ks vs ->
  (List.length (interleave ks vs ++ [0%Z] ++ rest) <= fuel)%nat ->
  decode_kv fuel tbl (interleave ks vs ++ [0] ++ rest) acc = Ok (rest, acc ++ ts).
Proof.
  induction 1 as [|x ts [Hk Hv] _ IH]; intros ks vs acc rest fuel [A B] HL; cbn in A, B;
    inversion A as [|k ? ks1 ? Fk A1]; inversion B as [|v ? vs1 ? Fv B1]; subst; cbn [interleave app] in *.
  - rewrite app_nil_r. destruct fuel; reflexivity.
  - destruct fuel as [|fuel]; [cbn in HL; lia|]. cbn [decode_kv]. destruct Fk as [Rk Nk]. destruct (Z.eqb_spec k 0); [lia|].
    rewrite (str_final _ k (tkey x) (conj Rk Nk) Hk), (str_final _ _ _ Fv Hv). cbn [obind].
    rewrite IH; [|split; assumption|cbn [app List.length] in *; lia]. unfold tl_add. rewrite <- app_assoc. destruct x; reflexivity.
Qed.

Lemma user_result_ok s a : user_ok s -> user_result s a = Ok (set_user s a).
Proof.
  intros [_ H]. unfold user_result, user_text. change max_length_username with 1021.
  assert (G : (slen s >? 1021) = false) by lia. rewrite G. reflexivity.
Qed.
Lemma version_back v : in_u32 v -> to_u32 (to_i32 v) = v.
Proof. unfold in_u32, to_u32, to_i32. intros. lia. Qed.

(* ---- messages and objects ---- *)
Section Rel.
Variables (c : pcfg) (ec et fc ft : Z -> Z) (T : Z -> Prop).

Definition vis (a : attrs) : option bool := if cf_visible c then Some (o_visible a) else None.
Definition info_rel (S : Z -> string -> Prop) (a : attrs) (i : option pinfo) : Prop :=
  if cf_meta c then exists u, S u (o_user a) /\
    i = Some (mkPI (to_i32 (o_version a)) (et (o_timestamp a)) (o_changeset a) (to_i32 (o_uid a)) u (vis a))
  else i = None.
Definition common_rel (S : Z -> string -> Prop) (a : attrs) (p : pcommon) : Prop :=
  c_id p = o_id a /\ tags_rel S (o_tags a) (c_keys p) (c_vals p) /\ info_rel S a (c_info p).
Definition node_rel (S : Z -> string -> Prop) (n : node) (p : pnode) : Prop :=
  common_rel S (n_attrs n) (pn_common p) /\ pn_lat p = ec (py (n_pos n)) /\ pn_lon p = ec (px (n_pos n)).
Definition way_rel (S : Z -> string -> Prop) (y : way) (p : pway) : Prop :=
  common_rel S (w_attrs y) (pw_common p) /\ pw_refs p = deltas 0 (map wn_ref (w_nodes y)) /\ Forall in_i64 (pw_refs p).
Definition rel_rel (S : Z -> string -> Prop) (y : relation) (p : prelation) : Prop :=
  common_rel S (r_attrs y) (pr_common p) /\ Forall2 S (pr_roles p) (map m_role (r_members y)) /\
  pr_memids p = deltas 0 (map m_ref (r_members y)) /\ Forall in_i64 (pr_memids p) /\
  Forall2 (fun t m => member_code (m_type m) = Some t) (pr_types p) (r_members y).
Definition dinfo_rel (U : list Z -> list string -> Prop) (ns : list attrs) (i : pdenseinfo) : Prop :=
  di_version i = map (fun a => to_i32 (o_version a)) ns /\
  di_timestamp i = deltas 0 (map (fun a => et (o_timestamp a)) ns) /\ Forall in_i64 (di_timestamp i) /\
  di_changeset i = deltas 0 (map o_changeset ns) /\ Forall in_i64 (di_changeset i) /\
  di_uid i = map to_i32 (deltas 0 (map o_uid ns)) /\
  U (di_user_sid i) (map o_user ns) /\
  di_visible i = if cf_visible c then map o_visible ns else [].
Definition the_dinfo (d : pdense) : pdenseinfo := match dn_info d with Some i => i | None => dinfo_new end.
Definition kv_rel (S : Z -> string -> Prop) (a : attrs) (kv : list Z) : Prop :=
  exists ks vs, tags_rel S (o_tags a) ks vs /\ kv = interleave ks vs ++ [0].
Definition dense_rel (S : Z -> string -> Prop) (U : list Z -> list string -> Prop) (ns : list node) (d : pdense) : Prop :=
  dn_id d = deltas 0 (map (fun n => o_id (n_attrs n)) ns) /\ Forall in_i64 (dn_id d) /\
  dn_lat d = deltas 0 (map (fun n => ec (py (n_pos n))) ns) /\ Forall in_i64 (dn_lat d) /\
  dn_lon d = deltas 0 (map (fun n => ec (px (n_pos n))) ns) /\ Forall in_i64 (dn_lon d) /\
  (exists kvs, dn_kv d = List.concat kvs /\ Forall2 (fun n kv => kv_rel S (n_attrs n) kv) ns kvs) /\
  if cf_meta c then dinfo_rel U (map n_attrs ns) (the_dinfo d) /\ (ns <> [] -> dn_info d <> None) else dn_info d = None.

(* ---- what decoding gives ---- *)
Hypothesis HC : forall x, in_i32 x -> exists y, decode_coord (ec x) (to_i32 (cf_gran c)) 0 = Ok y /\ to_i32 y = fc x.
Hypothesis HT : forall t, T t -> i64 (et t * Z.quot (to_i32 (cf_dgran c)) 1000) = Ok (ft t).
Hypothesis HE : forall x, in_i32 x -> in_i64 (ec x).
Hypothesis HF : forall t, T t -> in_i64 (et t).
Definition attrs_fine (a : attrs) : Prop := attrs_ok a /\ T (o_timestamp a).
Definition blk (tbl : list string) (gs : list pgroup) : pblock := mkPB tbl gs (to_i32 (cf_gran c)) 0 0 (to_i32 (cf_dgran c)).

Lemma decode_common_ok tbl gs a p : attrs_fine a -> common_rel (final_id tbl) a p ->
  decode_common tbl (date_factor (blk tbl gs)) p = Ok (kept_attrs c ft a).
Proof.
  intros [(Hid & Hv & Hc & _ & Hu & Hus & Ht) HTt] (Ei & Et & Hi). unfold decode_common. rewrite Ei.
  unfold info_rel in Hi. unfold kept_attrs. destruct (cf_meta c).
  - destruct Hi as (u & Fu & ->). unfold decode_info. cbn [i_timestamp i_uid i_changeset i_version i_user_sid i_visible].
    unfold date_factor, blk. cbn [pb_date_granularity]. rewrite (HT _ HTt). cbn [obind].
    rewrite (str_final _ _ _ Fu (proj1 Hus)). cbn [obind]. rewrite (user_result_ok _ _ Hus). cbn [obind].
    rewrite (version_back _ Hv), (to_i32_id _ Hc). assert (E : to_i32 (to_i32 (o_uid a)) = o_uid a) by (rewrite !to_i32_id; auto using to_i32_range).
    rewrite E. unfold vis, cf_visible. destruct (ft_multiple (cf_type c)); cbn;
      rewrite (decode_tags_ok tbl _ Ht _ _ [] Et); reflexivity.
  - rewrite Hi. cbn. rewrite (decode_tags_ok tbl _ Ht _ _ [] Et). reflexivity.
Qed.

Definition kept_pos (p : position) : position := mkPos (fc (px p)) (fc (py p)).
Lemma decode_pos_ok tbl gs p : in_i32 (px p) -> in_i32 (py p) ->
  decode_pos (blk tbl gs) (ec (px p)) (ec (py p)) = Ok (kept_pos p).
Proof.
  intros Hx Hy. unfold decode_pos, blk. cbn [pb_granularity pb_lon_offset pb_lat_offset].
  destruct (HC _ Hx) as (x & Ex & Fx). destruct (HC _ Hy) as (y & Ey & Fy). rewrite Ex, Ey. cbn [obind].
  unfold pos_of_int64, kept_pos. rewrite Fx, Fy. reflexivity.
Qed.
Lemma decode_node_ok tbl gs n p : attrs_fine (n_attrs n) -> in_i32 (px (n_pos n)) -> in_i32 (py (n_pos n)) ->
  node_rel (final_id tbl) n p -> decode_node (blk tbl gs) p = Ok (kept_with c fc ft (ONode n)).
Proof.
  intros Ha Hx Hy (Hc & El & Eo). unfold decode_node. change (pb_strings (blk tbl gs)) with tbl. rewrite (decode_common_ok tbl gs _ _ Ha Hc). cbn [obind].
  rewrite El, Eo, decode_pos_ok by assumption. reflexivity.
Qed.
Lemma decode_way_ok tbl gs y p : attrs_fine (w_attrs y) -> Forall (fun n => in_i64 (wn_ref n)) (w_nodes y) ->
  way_rel (final_id tbl) y p -> decode_way (blk tbl gs) p = Ok (kept_with c fc ft (OWay y)).
Proof.
  intros Ha Hn (Hc & Er & _). unfold decode_way. change (pb_strings (blk tbl gs)) with tbl. rewrite (decode_common_ok tbl gs _ _ Ha Hc). cbn [obind].
  rewrite Er. rewrite <- to_u64_0. rewrite decode_refs_deltas; [|rewrite Forall_map; exact Hn]. rewrite map_map. reflexivity.
Qed.
Lemma member_char_code t m : member_code t = Some m -> member_char m = t.
Proof.
  unfold member_code. destruct (Ascii.eqb_spec t "n"); [intros [= <-]; subst; reflexivity|].
  destruct (Ascii.eqb_spec t "w"); [intros [= <-]; subst; reflexivity|].
  destruct (Ascii.eqb_spec t "r"); [intros [= <-]; subst; reflexivity|discriminate].
Qed.
Lemma decode_members_ok tbl ms : Forall member_ok ms -> forall m ts roles acc,
  Forall2 (fun t m => member_code (m_type m) = Some t) ts ms -> Forall2 (final_id tbl) roles (map m_role ms) ->
  decode_members tbl (to_u64 m) ts (deltas m (map m_ref ms)) roles acc = Ok (acc ++ ms).
Proof.
  induction 1 as [|x ms [Hr [Hn Hl]] _ IH]; intros m ts roles acc A B; cbn in B;
    inversion A as [|t ? ts1 ? Ft A1]; inversion B as [|r ? rs1 ? Fr B1]; subst; cbn [decode_members deltas map].
  - rewrite app_nil_r. reflexivity.
  - rewrite u64_add, (str_final _ _ _ Fr Hn). cbn [obind]. unfold add_member. change max_length_role with 1021.
    assert (G : (slen (m_role x) >? 1021) = false) by lia. rewrite G, (member_char_code _ _ Ft), (wrap_i64 _ Hr).
    rewrite IH by assumption. rewrite <- app_assoc. destruct x; reflexivity.
Qed.
Lemma decode_relation_ok tbl gs y p : attrs_fine (r_attrs y) -> Forall member_ok (r_members y) ->
  rel_rel (final_id tbl) y p -> decode_relation (blk tbl gs) p = Ok (kept_with c fc ft (ORel y)).
Proof.
  intros Ha Hm (Hc & Er & Ei & _ & Ety). unfold decode_relation. change (pb_strings (blk tbl gs)) with tbl. rewrite (decode_common_ok tbl gs _ _ Ha Hc). cbn [obind].
  rewrite Ei. change (decode_members tbl 0) with (decode_members tbl (to_u64 0)). rewrite (decode_members_ok tbl _ Hm 0 _ _ [] Ety Er). reflexivity.
Qed.
Lemma decode_list_ok {A B} (f : A -> outcome object) (g : B -> object) (xs : list B) (ps : list A) :
  Forall2 (fun x p => f p = Ok (g x)) xs ps -> decode_list f ps = (map g xs, Ok tt).
Proof. induction 1 as [|x p xs ps E _ IH]; cbn; [reflexivity|]. rewrite E, IH. reflexivity. Qed.

(* ---- dense nodes ---- *)
Definition users_rel (tbl : list string) (us : list Z) (users : list string) : Prop :=
  exists js, Forall2 (final_id tbl) js users /\ us = deltas 0 js.
Definition sofar {A} (f : A -> Z) (e : nat) (l : list A) : Z := last (firstn e (map f l)) 0.

Lemma nth_deltas l : forall m e x, nth_error l e = Some x ->
  nth_error (deltas m l) e = Some (x - last (firstn e l) m) /\ last (firstn (S e) l) m = x.
Proof.
  induction l as [|y l IH]; intros m e x H; [destruct e; discriminate|]. destruct e as [|e].
  - injection H as ->. cbn. split; reflexivity.
  - cbn [nth_error] in H. destruct (IH y e x H) as [A B]. cbn [deltas nth_error firstn]. rewrite A. split.
    + rewrite (last_cons y m). reflexivity.
    + transitivity (last (firstn (S e) l) y); [symmetry; apply (last_cons y m)|exact B].
Qed.
Lemma sofar_S {A} (f : A -> Z) e l n : nth_error l e = Some n -> sofar f (S e) l = f n.
Proof. intros H. unfold sofar. apply (nth_deltas (map f l) 0 e). rewrite nth_error_map, H. reflexivity. Qed.
Lemma rep_deltas {A} (f : A -> Z) e l n : nth_error l (Z.to_nat e) = Some n -> 0 <= e ->
  rep (deltas 0 (map f l)) e = Ok (f n - sofar f (Z.to_nat e) l).
Proof.
  intros H He. rewrite rep_nth by exact He. destruct (nth_deltas (map f l) 0 (Z.to_nat e) (f n)) as [X _].
  - rewrite nth_error_map, H. reflexivity.
  - rewrite X. reflexivity.
Qed.
Lemma i64_ok x : in_i64 x -> i64 x = Ok x.
Proof. intros H. unfold i64. apply in_i64b_spec in H. rewrite H. reflexivity. Qed.

(** the sum of differences, taken modulo 2^32 and bounded *)
Definition uid_inv (e : nat) (uid : Z) (v : Z) : Prop :=
  to_i32 v = to_i32 uid /\ Z.abs v <= Z.of_nat e * 2147483648.
Lemma uid_step e uid v uid' : uid_inv e uid v -> uid_inv (S e) uid' (v + to_i32 (uid' - uid)).
Proof.
  intros [A B]. split.
  - unfold to_i32 in *. 
    assert (E : (v + 2147483648) mod 4294967296 = (uid + 2147483648) mod 4294967296) by lia. clear A B.
    f_equal. rewrite Z.add_sub_assoc.
    replace (v + (uid' - uid + 2147483648) mod 4294967296 - 2147483648 + 2147483648) with (v + (uid' - uid + 2147483648) mod 4294967296) by lia.
    rewrite Zplus_mod_idemp_r. replace (v + (uid' - uid + 2147483648)) with ((v + 2147483648) + (uid' - uid)) by lia.
    rewrite <- Zplus_mod_idemp_l, E, Zplus_mod_idemp_l. f_equal. lia.
  - pose proof (to_i32_range (uid' - uid)) as R. unfold in_i32, int32_min, int32_max in R. lia.
Qed.

Definition node_fine (n : node) : Prop := attrs_fine (n_attrs n) /\ in_i32 (px (n_pos n)) /\ in_i32 (py (n_pos n)).
Definition node_attrs (f : attrs -> Z) (n : node) : Z := f (n_attrs n).

(** the state before entity number e *)
Definition ds_inv (ns : list node) (js : list Z) (rest : list Z) (e : nat) (s : dstate) : Prop :=
  ds_id s = sofar (fun n => o_id (n_attrs n)) e ns /\ ds_lat s = sofar (fun n => ec (py (n_pos n))) e ns /\
  ds_lon s = sofar (fun n => ec (px (n_pos n))) e ns /\ ds_kv s = rest /\
  if cf_meta c then
    ds_cs s = sofar (fun n => o_changeset (n_attrs n)) e ns /\ ds_ts s = sofar (fun n => et (o_timestamp (n_attrs n))) e ns /\
    ds_sid s = sofar (fun j => j) e js /\ uid_inv e (sofar (fun n => o_uid (n_attrs n)) e ns) (ds_uid s)
  else True.

Lemma map_id_eq (l : list Z) : map (fun j => j) l = l.
Proof. induction l; cbn; congruence. Qed.

Lemma decode_dense1_ok tbl gs ns d js e n s kv rest :
  Z.of_nat (List.length ns) <= 1000000 ->
  nth_error ns e = Some n -> node_fine n -> Forall2 (final_id tbl) js (map (fun n => o_user (n_attrs n)) ns) \/ cf_meta c = false ->
  dense_rel (final_id tbl) (fun us _ => us = deltas 0 js) ns d -> kv_rel (final_id tbl) (n_attrs n) kv ->
  ds_inv ns js (kv ++ rest) e s ->
  exists s', decode_dense1 (blk tbl gs) d (Z.of_nat e) s = Ok (s', kept_with c fc ft (ONode n)) /\ ds_inv ns js rest (S e) s'.
Proof.
  intros HL Hn [Ha [Hx Hy]] Hjs (D1 & _ & D2 & _ & D3 & _ & _ & D5) (ks & vs & Hkv & ->) (S1 & S2 & S3 & S4 & S5).
  pose proof Ha as [(Hid & Hv & Hc & _ & Hu & Hus & Ht) HTt].
  assert (Hn' : nth_error ns (Z.to_nat (Z.of_nat e)) = Some n) by (rewrite Nat2Z.id; exact Hn).
  assert (EL : (e < List.length ns)%nat) by (apply nth_error_Some; congruence).
  assert (He : 0 <= Z.of_nat e) by lia.
  unfold decode_dense1. rewrite D1, D2, D3.
  rewrite (rep_deltas (fun n => o_id (n_attrs n)) _ ns n Hn' He). cbn [obind]. rewrite Nat2Z.id. rewrite <- S1.
  replace (ds_id s + (o_id (n_attrs n) - ds_id s)) with (o_id (n_attrs n)) by lia. rewrite (i64_ok _ Hid). cbn [obind].
  assert (DI : exists uid sid cs ts,
    decode_dinfo (pb_strings (blk tbl gs)) (date_factor (blk tbl gs)) (Z.of_nat e) (dn_info d) s (set_id (o_id (n_attrs n)) attrs_new) =
      Ok (mkDS (ds_id s) (ds_lat s) (ds_lon s) uid sid cs ts (ds_kv s), set_tags [] (kept_attrs c ft (n_attrs n))) /\
    if cf_meta c then cs = o_changeset (n_attrs n) /\ ts = et (o_timestamp (n_attrs n)) /\ nth_error js e = Some sid /\
      uid_inv (S e) (o_uid (n_attrs n)) uid else True).
  { unfold kept_attrs, decode_dinfo. destruct (cf_meta c) eqn:EM.
    - destruct D5 as [D5 D6]. unfold the_dinfo in D5. destruct (dn_info d) as [i|]; [|exfalso; apply D6; [destruct ns; [destruct e|]; discriminate|reflexivity]].
      destruct D5 as (I1 & I2 & _ & I3 & _ & I4 & I5 & I6). destruct S5 as (T1 & T2 & T3 & T4).
      destruct Hjs as [Hjs|Hjs]; [|discriminate].
      rewrite map_map in I2, I3, I4. rewrite I3, I2, I4, I5, I1.
      rewrite (rep_deltas (fun n => o_changeset (n_attrs n)) _ ns n Hn' He). rewrite Nat2Z.id, <- T1. cbn [obind].
      replace (ds_cs s + (o_changeset (n_attrs n) - ds_cs s)) with (o_changeset (n_attrs n)) by lia.
      rewrite (i64_ok (o_changeset _)) by (unfold in_i32, in_i64, int32_min, int32_max, int64_min, int64_max in *; lia). cbn [obind].
      rewrite (rep_deltas (fun n => et (o_timestamp (n_attrs n))) _ ns n Hn' He). rewrite Nat2Z.id, <- T2. cbn [obind].
      replace (ds_ts s + (et (o_timestamp (n_attrs n)) - ds_ts s)) with (et (o_timestamp (n_attrs n))) by lia.
      rewrite (i64_ok (et _)) by auto. cbn [obind].
      assert (RU : rep (map to_i32 (deltas 0 (map (fun n => o_uid (n_attrs n)) ns))) (Z.of_nat e) =
                   Ok (to_i32 (o_uid (n_attrs n) - sofar (fun n => o_uid (n_attrs n)) e ns))).
      { pose proof (rep_deltas (fun n => o_uid (n_attrs n)) _ ns n Hn' He) as RU. rewrite rep_nth in RU |- * by exact He.
        rewrite nth_error_map. destruct (nth_error (deltas 0 _) _); [|discriminate]. injection RU as ->. rewrite Nat2Z.id. reflexivity. }
      rewrite RU. cbn [obind]. pose proof (uid_step e _ _ (o_uid (n_attrs n)) T4) as T4'.
      set (uid := ds_uid s + _) in *. 
      assert (in_i64 uid). { destruct T4' as [_ B]. unfold in_i64, int64_min, int64_max. lia. }
      rewrite (i64_ok uid) by assumption. cbn [obind].
      assert (Hj : exists j, nth_error js e = Some j /\ final_id tbl j (o_user (n_attrs n))).
      { assert (Hm : nth_error (map (fun n => o_user (n_attrs n)) ns) e = Some (o_user (n_attrs n))) by (rewrite nth_error_map, Hn; reflexivity).
        revert Hm. generalize (o_user (n_attrs n)). clear - Hjs. revert e. induction Hjs as [|j u js us Hj _ IH]; intros e u' Hm; [destruct e; discriminate|].
        destruct e; [injection Hm as ->; exists j; split; [reflexivity|exact Hj]|]. apply IH. exact Hm. }
      destruct Hj as (j & Hj & Fj).
      assert (RS : rep (deltas 0 js) (Z.of_nat e) = Ok (j - sofar (fun j => j) e js)).
      { rewrite <- (map_id_eq js) at 1. rewrite (rep_deltas (fun j => j) (Z.of_nat e) js j); [rewrite Nat2Z.id; reflexivity|rewrite Nat2Z.id; exact Hj|exact He]. }
      rewrite RS. cbn [obind]. rewrite <- T3. replace (ds_sid s + (j - ds_sid s)) with j by lia.
      pose proof (proj1 Fj) as Rj. rewrite (i64_ok j) by (unfold in_i64, int64_min, int64_max; lia). cbn [obind].
      rewrite rep_nth by exact He. rewrite !nth_error_map, Hn'. cbn [option_map obind].
      unfold date_factor at 1. cbn [pb_date_granularity blk pb_strings]. rewrite (HT _ HTt). cbn [obind].
      rewrite (to_i32_id j) by (unfold in_i32, int32_min, int32_max; lia).
      rewrite (str_final _ _ _ Fj (proj1 Hus)). cbn [obind]. rewrite (user_result_ok _ _ Hus). cbn [obind].
      rewrite (version_back _ Hv), (to_i32_id _ Hc). rewrite (proj1 T4'), (to_i32_id _ Hu).
      exists uid, j, (o_changeset (n_attrs n)), (et (o_timestamp (n_attrs n))). split; [|auto].
      rewrite I6. unfold cf_visible. destruct (ft_multiple (cf_type c)).
      + destruct (map o_visible (map n_attrs ns)) eqn:EV; [destruct ns; [destruct e|]; discriminate|].
        rewrite <- EV. rewrite rep_nth by exact He. rewrite !nth_error_map, Hn'. reflexivity.
      + reflexivity.
    - rewrite D5. exists (ds_uid s), (ds_sid s), (ds_cs s), (ds_ts s). destruct s. split; [reflexivity|exact I]. }
  destruct DI as (uid & sid & cs & ts & EI & PI). rewrite EI. cbn [obind].
  rewrite (rep_deltas (fun n => ec (py (n_pos n))) _ ns n Hn' He). rewrite Nat2Z.id, <- S2. cbn [obind].
  replace (ds_lat s + (ec (py (n_pos n)) - ds_lat s)) with (ec (py (n_pos n))) by lia. rewrite (i64_ok (ec _)) by auto. cbn [obind].
  rewrite (rep_deltas (fun n => ec (px (n_pos n))) _ ns n Hn' He). rewrite Nat2Z.id, <- S3. cbn [obind].
  replace (ds_lon s + (ec (px (n_pos n)) - ds_lon s)) with (ec (px (n_pos n))) by lia. rewrite (i64_ok (ec _)) by auto. cbn [obind].
  rewrite decode_pos_ok by assumption. cbn [obind].
  rewrite S4. rewrite <- app_assoc. cbn [pb_strings blk]. rewrite (decode_kv_ok tbl _ Ht ks vs _ rest _ Hkv) by lia. cbn [obind].
  eexists. split.
  - f_equal. f_equal. cbn [kept_with]. f_equal. unfold kept_attrs. destruct (cf_meta c); reflexivity.
  - unfold ds_inv. cbn [ds_id ds_lat ds_lon ds_kv ds_cs ds_ts ds_sid ds_uid].
    rewrite !(sofar_S _ e ns n Hn). repeat split. destruct (cf_meta c); [|exact I].
    destruct PI as (-> & -> & Hj & PU). repeat split; try apply PU. symmetry. exact (sofar_S (fun j => j) e js sid Hj).
Qed.

Lemma decode_dense_ok tbl gs ns d js : Z.of_nat (List.length ns) <= 1000000 -> Forall node_fine ns ->
  Forall2 (final_id tbl) js (map (fun n => o_user (n_attrs n)) ns) \/ cf_meta c = false ->
  dense_rel (final_id tbl) (fun us _ => us = deltas 0 js) ns d ->
  forall l pre kvs s, ns = pre ++ l -> Forall2 (fun n kv => kv_rel (final_id tbl) (n_attrs n) kv) l kvs ->
  ds_inv ns js (List.concat kvs) (List.length pre) s ->
  decode_dense (List.length l) (blk tbl gs) d (Z.of_nat (List.length pre)) s = (map (fun n => kept_with c fc ft (ONode n)) l, Ok tt).
Proof.
  intros HL HN Hjs HD. induction l as [|n l IH]; intros pre kvs s E HK HS; [reflexivity|].
  inversion HK as [|? kv ? kvs' Hkv HK']; subst. cbn [List.concat] in HS. cbn [List.length decode_dense].
  assert (Hn : nth_error (pre ++ n :: l) (List.length pre) = Some n) by (rewrite nth_error_app2, Nat.sub_diag; [reflexivity|lia]).
  destruct (decode_dense1_ok tbl gs (pre ++ n :: l) d js (List.length pre) n s kv (List.concat kvs')) as (s' & E1 & HS'); auto.
  { rewrite Forall_forall in HN. apply HN. apply in_or_app. right; left; reflexivity. }
  rewrite E1. specialize (IH (pre ++ [n]) kvs' s'). rewrite app_length in IH. cbn [List.length] in IH.
  replace (Z.of_nat (List.length pre) + 1) with (Z.of_nat (List.length pre + 1)) by lia. rewrite IH; [reflexivity| |exact HK'|].
  - rewrite <- app_assoc. reflexivity.
  - replace (List.length pre + 1)%nat with (S (List.length pre)) by lia. exact HS'.
Qed.
Lemma dense_group_ok tbl gs ns d : Z.of_nat (List.length ns) <= 1000000 -> Forall node_fine ns ->
  dense_rel (final_id tbl) (users_rel tbl) ns d ->
  decode_dense (List.length (dn_id d)) (blk tbl gs) d 0 (mkDS 0 0 0 0 0 0 0 (dn_kv d)) =
    (map (fun n => kept_with c fc ft (ONode n)) ns, Ok tt).
Proof.
  intros HL HN HD. pose proof HD as (D1 & D1' & D2 & D2' & D3 & D3' & (kvs & D4 & D4') & D5).
  assert (HX : exists js, (Forall2 (final_id tbl) js (map (fun n => o_user (n_attrs n)) ns) \/ cf_meta c = false) /\
            dense_rel (final_id tbl) (fun us _ => us = deltas 0 js) ns d).
  { destruct (cf_meta c) eqn:EM.
    - destruct D5 as [(I1 & I2 & I2' & I3 & I3' & I4 & (js & Hj & I5) & I6) D6]. exists js. rewrite map_map in Hj. split; [left; exact Hj|].
      unfold dense_rel. rewrite EM. repeat (split; [assumption|]). split; [exists kvs; split; assumption|].
      split; [|exact D6]. unfold dinfo_rel. repeat (split; [assumption|]). assumption.
    - exists []. split; [right; reflexivity|]. unfold dense_rel. rewrite EM. repeat (split; [assumption|]). split; [exists kvs; split; assumption|exact D5]. }
  destruct HX as (js & Hjs & HD'). rewrite D1 at 1. rewrite deltas_length, map_length.
  apply (decode_dense_ok tbl gs ns d js HL HN Hjs HD' ns [] kvs); [reflexivity|exact D4'|].
  unfold ds_inv. cbn [ds_id ds_lat ds_lon ds_kv ds_cs ds_ts ds_sid ds_uid List.length]. unfold sofar. cbn [firstn last].
  repeat split; [exact D4|]. destruct (cf_meta c); [|exact I]. repeat split; cbn; lia.
Qed.
End Rel.
