(** The readers and the writers never throw StopReading themselves. *)
From Verif Require Import Base.Prelude Model.Osm Model.Float Model.Time Model.Utils Model.Attr Model.OsmFile Model.Handler Model.Pbf Model.Xml.

Definition nostop {A} (x : outcome A) : Prop := x <> Throw EStopReading.
Lemma ns_ok A (a : A) : nostop (Ok a). Proof. discriminate. Qed.
Lemma ns_ub A : nostop (@UB A). Proof. discriminate. Qed.
Lemma ns_af A : nostop (@AssertFail A). Proof. discriminate. Qed.
Lemma ns_bind A B (x : outcome A) (f : A -> outcome B) : nostop x -> (forall a, x = Ok a -> nostop (f a)) -> nostop (obind x f).
Proof. unfold nostop. destruct x; cbn; intros H1 H2; auto; try discriminate. intros H. injection H as ->. now apply H1. Qed.
Create HintDb ns.
#[local] Hint Resolve ns_ok ns_ub ns_af : ns.
Ltac ns1 :=
  match goal with
  | |- nostop (obind _ _) => apply ns_bind; [|let a := fresh "a" in let E := fresh "E" in intros a E; cbv beta]
  | |- nostop (Throw _) => first [discriminate | let H := fresh in intros H; injection H; intros; subst; discriminate]
  | |- nostop _ => solve [auto with ns]
  | |- nostop (match ?x with _ => _ end) => destruct x eqn:?
  | |- nostop (if ?x then _ else _) => destruct x eqn:?
  end.
Ltac ns := cbv zeta; repeat ns1.

Lemma ns_isub t a b : nostop (isub t a b). Proof. unfold isub. ns. Qed.
#[local] Hint Resolve ns_isub : ns.
Lemma ns_delta t a b : nostop (delta_update t a b). Proof. unfold delta_update. ns. Qed.
#[local] Hint Resolve ns_delta : ns.
Lemma ns_fill l : forall n ids, nostop (st_fill l n ids).
Proof. induction l as [|[s i] r IH]; intros n ids; cbn [st_fill]; ns. Qed.
#[local] Hint Resolve ns_fill : ns.
Lemma ns_stst o t : nostop (store_stringtable o t). Proof. unfold store_stringtable. ns. Qed.
Lemma ns_mapid i t : nostop (map_string_id i t). Proof. unfold map_string_id. ns. Qed.
#[local] Hint Resolve ns_stst ns_mapid : ns.
Lemma ns_cast a b x : nostop (d_cast a b x). Proof. unfold d_cast. ns. Qed.
Lemma ns_i64d x : nostop (d_to_i64 x). Proof. apply ns_cast. Qed.
Lemma ns_fix x : nostop (double_to_fix x). Proof. apply ns_cast. Qed.
#[local] Hint Resolve ns_cast ns_i64d ns_fix : ns.
Lemma ns_lon p x : nostop (pos_set_lon p x). Proof. unfold pos_set_lon. ns. Qed.
Lemma ns_lat p x : nostop (pos_set_lat p x). Proof. unfold pos_set_lat. ns. Qed.
#[local] Hint Resolve ns_lon ns_lat : ns.
Lemma ns_atoll s : nostop (atoll s). Proof. unfold atoll. ns. Qed.
#[local] Hint Resolve ns_atoll : ns.
Lemma ns_oid s : nostop (string_to_osm_object_id_t s). Proof. apply ns_atoll. Qed.
#[local] Hint Resolve ns_oid : ns.
Lemma ns_to_iso t : nostop (to_iso t). Proof. unfold to_iso. ns. Qed.
Lemma ns_parse_iso s : nostop (parse_iso s). Proof. unfold parse_iso. ns. Qed.
#[local] Hint Resolve ns_to_iso ns_parse_iso : ns.
Lemma ns_set_attr k v a : nostop (set_attribute k v a) /\ forall x e, set_attribute k v a = Ok (x, Some e) -> e <> EStopReading.
Proof.
  unfold set_attribute, string_to_osm_version_t, string_to_osm_changeset_id_t, string_to_osm_user_id_t, timestamp_text. split.
  - ns.
  - intros x e. unfold string_to_osm_object_id_t.
    destruct (String.eqb k "id"); [destruct (atoll v); cbn; intros H; congruence|].
    destruct (String.eqb k "version"); [destruct (atoll v); cbn; intros H; congruence|].
    destruct (String.eqb k "changeset"); [destruct (atoll v); cbn; intros H; congruence|].
    destruct (String.eqb k "timestamp").
    { pose proof (ns_parse_iso v) as N. destruct (parse_iso v); intros H; try discriminate; injection H as _ <-.
      intros ->. now apply N. }
    destruct (String.eqb k "uid"); [destruct (atoll v); cbn; intros H; congruence|].
    destruct (String.eqb k "user").
    { unfold user_text. destruct (slen v >? max_length_username); intros H; injection H; intros; subst; discriminate. }
    destruct (String.eqb k "visible"); intros H; injection H; discriminate.
Qed.

(* ---- PBF ---- *)
Section Pbf.
Variable K : codec.
Lemma ns_write d f : nostop (sys_write d f). Proof. unfold sys_write. ns. Qed.
Lemma ns_zc d : nostop (zlib_compress K d). Proof. unfold zlib_compress. ns. Qed.
#[local] Hint Resolve ns_write ns_zc : ns.
Lemma ns_store c t d f : nostop (store_blob K c t d f). Proof. unfold store_blob. ns. Qed.
#[local] Hint Resolve ns_store : ns.
Lemma ns_hdr f : nostop (snd (read_blob_header K f)).
Proof.
  unfold read_blob_header. destruct (read_n 4 f) as [f1 [b| | |]]; cbn [snd]; ns.
  destruct b as [|a [|b [|c [|d [|e r]]]]]; cbn [snd]; ns.
  destruct ((convert_from_network_byte_order a b c d >? max_blob_header_size) || (convert_from_network_byte_order a b c d <? 0)); cbn [snd]; ns.
  destruct (read_n _ f1) as [f2 [h| | |]]; cbn [snd]; ns. destruct (par_bh K h); cbn [snd]; ns.
Qed.
Lemma ns_unpack b : nostop (unpack_blob K b). Proof. unfold unpack_blob. ns. Qed.
Lemma ns_blob n f : nostop (snd (read_blob K n f)).
Proof.
  unfold read_blob. destruct ((n <? 0) || (n >? max_uncompressed_blob_size)); cbn [snd]; ns.
  destruct (read_n _ f) as [f1 [d| | |]]; cbn [snd]; ns. destruct (par_blob K d); cbn [snd]; [apply ns_unpack|ns].
Qed.
Lemma ns_blobs_loop n : forall f, nostop (snd (read_blobs_loop K n f)).
Proof.
  induction n as [|n IH]; intros f; cbn [read_blobs_loop]; [discriminate|].
  pose proof (ns_hdr f) as H. destruct (read_blob_header K f) as [f1 r]; cbn [snd] in H.
  destruct r as [[h|]|e| |]; cbn [snd]; ns; [|congruence].
  pose proof (ns_blob (bh_datasize h) f1) as H1. destruct (read_blob K (bh_datasize h) f1) as [f2 r]; cbn [snd] in H1.
  destruct r as [d|e| |]; cbn [snd]; ns; [|congruence].
  specialize (IH f2). destruct (read_blobs_loop K n f2); exact IH.
Qed.
Lemma ns_rep A (l : list A) i : nostop (rep l i). Proof. unfold rep. ns. Qed.
#[local] Hint Resolve ns_rep : ns.
Lemma ns_str t i : nostop (str t i). Proof. unfold str. ns. Qed.
Lemma ns_i64 x : nostop (i64 x). Proof. unfold i64. ns. Qed.
Lemma ns_user s a : nostop (user_result s a). Proof. unfold user_result, user_text. destruct (slen s >? max_length_username); ns. Qed.
#[local] Hint Resolve ns_str ns_i64 ns_user : ns.
Lemma ns_dinfo1 t d i a : nostop (decode_info t d i a). Proof. unfold decode_info. ns. Qed.
#[local] Hint Resolve ns_dinfo1 : ns.
Lemma ns_dtags t ks : forall vs ts, nostop (decode_tags t ks vs ts).
Proof. induction ks as [|k r IH]; intros vs ts; cbn [decode_tags]; ns. Qed.
#[local] Hint Resolve ns_dtags : ns.
Lemma ns_dcommon t d c : nostop (decode_common t d c). Proof. unfold decode_common. ns. Qed.
#[local] Hint Resolve ns_dcommon : ns.
Lemma ns_dcoord a b c : nostop (decode_coord a b c). Proof. unfold decode_coord. ns. Qed.
#[local] Hint Resolve ns_dcoord : ns.
Lemma ns_dpos b x y : nostop (decode_pos b x y). Proof. unfold decode_pos. ns. Qed.
#[local] Hint Resolve ns_dpos : ns.
Lemma ns_dnode b n : nostop (decode_node b n). Proof. unfold decode_node. ns. Qed.
Lemma ns_dway b n : nostop (decode_way b n). Proof. unfold decode_way. ns. Qed.
Lemma ns_dmembers t ts : forall ref ids rs ms, nostop (decode_members t ref ts ids rs ms).
Proof.
  induction ts as [|x r IH]; intros ref ids rs ms; cbn [decode_members]; ns.
  unfold add_member in *. destruct (slen a >? max_length_role); ns.
Qed.
#[local] Hint Resolve ns_dmembers : ns.
Lemma ns_drel b n : nostop (decode_relation b n). Proof. unfold decode_relation. ns. Qed.
Lemma ns_dkv n t : forall kv ts, nostop (decode_kv n t kv ts).
Proof. induction n as [|n IH]; intros kv ts; destruct kv; cbn [decode_kv]; ns. Qed.
#[local] Hint Resolve ns_dkv : ns.
Lemma ns_ddinfo t d e i s a : nostop (decode_dinfo t d e i s a). Proof. unfold decode_dinfo. ns. Qed.
#[local] Hint Resolve ns_ddinfo : ns.
Lemma ns_dense1 b d e s : nostop (decode_dense1 b d e s). Proof. unfold decode_dense1. ns. Qed.
Lemma ns_dlist A (f : A -> outcome object) l : (forall x, nostop (f x)) -> nostop (snd (decode_list f l)).
Proof.
  intros H. induction l as [|x r IH]; cbn [decode_list]; [discriminate|]. specialize (H x).
  destruct (f x); cbn [snd]; try discriminate; [destruct (decode_list f r); exact IH|congruence].
Qed.
Lemma ns_ddense n b d : forall e s, nostop (snd (decode_dense n b d e s)).
Proof.
  induction n as [|n IH]; intros e s; cbn [decode_dense]; [discriminate|].
  pose proof (ns_dense1 b d e s) as H. destruct (decode_dense1 b d e s) as [[s' o]|x| |]; cbn [snd]; try discriminate; [|congruence].
  specialize (IH (e + 1) s'). destruct (decode_dense n b d (e + 1) s'); exact IH.
Qed.
Lemma ns_group b g : nostop (snd (parse_group b g)).
Proof.
  unfold parse_group. destruct (g_dense g) as [d|].
  { match goal with |- context[decode_dense ?a ?b ?c ?e ?f] => pose proof (ns_ddense a b c e f) as H; destruct (decode_dense a b c e f) end. exact H. }
  destruct (g_ways g) as [|x l]; [|pose proof (ns_dlist _ (decode_way b) (x :: l) (ns_dway b)) as H; destruct (decode_list (decode_way b) (x :: l)); exact H].
  destruct (g_rels g) as [|x l]; [|pose proof (ns_dlist _ (decode_relation b) (x :: l) (ns_drel b)) as H; destruct (decode_list (decode_relation b) (x :: l)); exact H].
  destruct (g_nodes g) as [|x l]; [discriminate|pose proof (ns_dlist _ (decode_node b) (x :: l) (ns_dnode b)) as H; destruct (decode_list (decode_node b) (x :: l)); exact H].
Qed.
Lemma ns_groups b gs : nostop (snd (parse_groups b gs)).
Proof.
  induction gs as [|g r IH]; cbn [parse_groups]; [discriminate|]. pose proof (ns_group b g) as H.
  destruct (parse_group b g) as [[x|] e]; cbn [snd] in H; [|exact H].
  destruct e as [[]|e| |]; cbn [snd]; auto with ns. destruct (parse_groups b r); exact IH.
Qed.
Lemma ns_header ty h m : nostop (parse_header ty h m). Proof. unfold parse_header. ns. Qed.
Lemma ns_parse_blobs ty bs : forall fin m, nostop fin -> nostop (pr_end (parse_blobs K ty bs fin m)).
Proof.
  induction bs as [|[t d] r IH]; intros fin m H; cbn [parse_blobs]; [exact H|].
  destruct (String.eqb t "OSMData").
  - destruct (par_pb K d) as [b|]; [|discriminate]. pose proof (ns_groups b (pb_groups b)) as G.
    destruct (parse_groups b (pb_groups b)) as [gs e]; cbn [snd] in G. destruct e as [[]|e| |]; cbn [pr_end]; auto with ns.
  - destruct (String.eqb t "OSMHeader"); [|auto]. destruct (par_hb K d) as [h|]; [|discriminate].
    pose proof (ns_header ty h m) as G. destruct (parse_header ty h m) as [m'|e| |]; cbn [pr_end]; auto with ns. congruence.
Qed.
Lemma ns_read_pbf ty f : nostop (pr_end (read_pbf K ty f)).
Proof.
  unfold read_pbf. pose proof (ns_blobs_loop (S (List.length (in_rest f))) f) as H.
  unfold read_blobs. destruct (read_blobs_loop K _ f) as [bs e]. apply ns_parse_blobs. exact H.
Qed.

(* writing *)
Lemma ns_ll g x : nostop (lonlat2int g x). Proof. apply ns_cast. Qed.
Lemma ns_ts g x : nostop (timestamp2int g x). Proof. apply ns_cast. Qed.
#[local] Hint Resolve ns_ll ns_ts : ns.
Lemma ns_common c a t : nostop (apply_common c a t). Proof. unfold apply_common. ns. Qed.
#[local] Hint Resolve ns_common : ns.
Lemma ns_wnode c n w : nostop (write_node c n w). Proof. unfold write_node. ns. Qed.
Lemma ns_wdense c n w : nostop (write_dense_node c n w). Proof. unfold write_dense_node. ns. Qed.
Lemma ns_erefs l : forall m, nostop (encode_refs m l).
Proof. induction l as [|r l IH]; intros m; cbn [encode_refs]; ns. Qed.
#[local] Hint Resolve ns_wnode ns_wdense ns_erefs : ns.
Lemma ns_wway c n w : nostop (write_way K c n w). Proof. unfold write_way. ns. Qed.
Lemma ns_emembers l : forall m t, nostop (encode_members m l t) /\
  forall a b c d e, encode_members m l t = Ok (a, b, c, d, Some e) -> e = ERuntime.
Proof.
  induction l as [|x r IH]; intros m t; cbn [encode_members].
  { split; [ns|]. intros a b c d e H. discriminate H. }
  destruct (record_string (m_role x) t) as [t1 k]. split.
  - ns. apply IH.
  - intros a b c d e. destruct (delta_update I64 m (m_ref x)) as [[m' dd]|?| |]; cbn; try discriminate.
    destruct (member_code (m_type x)); [|intros H; now injection H as _ _ _ _ <-].
    destruct (IH m' t1) as [_ I]. destruct (encode_members m' r t1) as [[[[[t2 ks] ds] ys] e']|?| |]; cbn; try discriminate.
    intros H. injection H as _ _ _ _ ->. eapply I; reflexivity.
Qed.
Lemma ns_wrel c n w : nostop (write_relation K c n w) /\ forall w' e, write_relation K c n w = Ok (w', Some e) -> e = ERuntime.
Proof.
  unfold write_relation. split.
  - ns. apply ns_emembers.
  - intros w' e. destruct (apply_common c (r_attrs n) (w_st w)) as [[t pc]|?| |]; cbn; try discriminate.
    destruct (ns_emembers (r_members n) delta_new t) as [_ I].
    destruct (encode_members delta_new (r_members n) t) as [[[[[t2 ks] ds] ys] e']|?| |]; cbn; try discriminate.
    destruct (w_pr w); [|discriminate]. intros H. injection H as _ ->. eapply I; reflexivity.
Qed.
#[local] Hint Resolve ns_wway : ns.
Lemma ns_mids t l : nostop (map_ids t l).
Proof. induction l as [|k r IH]; cbn [map_ids]; ns. Qed.
#[local] Hint Resolve ns_mids : ns.
Lemma ns_mcommon t p : nostop (map_common t p). Proof. unfold map_common. ns. Qed.
Lemma ns_mkv t l : nostop (map_kv t l).
Proof. induction l as [|k r IH]; cbn [map_kv]; ns. Qed.
Lemma ns_musers t l : forall m, nostop (map_users t m l).
Proof. induction l as [|k r IH]; intros m; cbn [map_users]; ns. Qed.
#[local] Hint Resolve ns_mcommon ns_mkv ns_musers : ns.
Lemma ns_mdense t m d : nostop (map_dense t m d). Proof. unfold map_dense. ns. Qed.
#[local] Hint Resolve ns_mdense : ns.
Lemma ns_mall A (f : A -> outcome A) l : (forall x, nostop (f x)) -> nostop (map_all f l).
Proof. intros H. induction l as [|k r IH]; cbn [map_all]; ns. Qed.
Lemma ns_mpn t p : nostop (map_pnode t p). Proof. unfold map_pnode. ns. Qed.
Lemma ns_mpw t p : nostop (map_pway t p). Proof. unfold map_pway. ns. Qed.
Lemma ns_mpr t p : nostop (map_prel t p). Proof. unfold map_prel. ns. Qed.
#[local] Hint Resolve ns_mall ns_mpn ns_mpw ns_mpr : ns.
Lemma ns_updo f l : (forall x, nostop (f x)) -> forall i, nostop (upd_o i f l).
Proof. intros H. induction l as [|x r IH]; intros i; destruct i; cbn [upd_o]; ns. Qed.
Lemma ns_msids t m w : nostop (map_string_ids t m w).
Proof. unfold map_string_ids. ns; apply ns_updo; intros; ns. Qed.
#[local] Hint Resolve ns_msids : ns.
Lemma ns_fblock c w : nostop (final_block K c w). Proof. unfold final_block. ns. Qed.
#[local] Hint Resolve ns_fblock : ns.
Lemma ns_spb c w : nostop (store_primitive_block K c w). Proof. unfold store_primitive_block. ns. Qed.
#[local] Hint Resolve ns_spb : ns.
Lemma ns_check c w : nostop (check_block_contents_counter K c w). Proof. unfold check_block_contents_counter. ns. Qed.
#[local] Hint Resolve ns_check : ns.
Lemma ns_object c o w : nostop (pbf_object K c o w) /\ forall w' e, pbf_object K c o w = Ok (w', Some e) -> e <> EStopReading.
Proof.
  unfold pbf_object. split.
  - ns. apply ns_wrel.
  - intros w' e. destruct (check_block_contents_counter K c w) as [w1|?| |]; cbn [obind]; try discriminate. cbv zeta.
    destruct o as [n|n|n].
    + destruct (if cf_dense c then _ else _) as [w2|?| |]; cbn; try discriminate. 
    + destruct (write_way K c n _) as [w2|?| |]; cbn; try discriminate. 
    + intros H. apply ns_wrel in H. subst. discriminate.
Qed.
Lemma ns_hof c m : nostop (header_of c m). Proof. unfold header_of. ns. Qed.
#[local] Hint Resolve ns_hof : ns.
Lemma ns_init c m w : nostop (pbf_init K c m w). Proof. unfold pbf_init. ns. Qed.
Lemma ns_final c w : nostop (pbf_final K c w). Proof. unfold pbf_final. ns. Qed.
End Pbf.

(* ---- XML ---- *)
Lemma ns_wmeta ft a : nostop (write_meta ft a). Proof. unfold write_meta. ns. Qed.
#[local] Hint Resolve ns_wmeta : ns.
Lemma ns_wobject ft o : nostop (write_object ft o). Proof. unfold write_object. ns. Qed.
Lemma ns_init_attrs hn l : forall a p, nostop (init_attrs hn l a p).
Proof.
  induction l as [|[k v] r IH]; intros a p; cbn [init_attrs]; [ns|].
  destruct (String.eqb k "lon"); [destruct hn; ns|]. destruct (String.eqb k "lat"); [destruct hn; ns|].
  destruct (ns_set_attr k v a) as [N1 N2]. apply ns_bind; [exact N1|]. intros [x e] E. cbn [fst snd].
  destruct e as [e|]; [|auto]. specialize (N2 _ _ E). congruence.
Qed.
Lemma ns_nd l : forall w, nostop (nd_attrs l w).
Proof. induction l as [|[k v] r IH]; intros w; cbn [nd_attrs]; ns. Qed.
Lemma ns_mem l : forall t ref role, nostop (member_attrs l t ref role).
Proof. induction l as [|[k v] r IH]; intros t ref role; cbn [member_attrs]; ns. Qed.
Lemma ns_root l : forall m, nostop (root_attrs l m).
Proof. induction l as [|[k v] r IH]; intros m; cbn [root_attrs]; ns. Qed.
Lemma ns_bounds l : forall a b, nostop (bounds_attrs l a b).
Proof. induction l as [|[k v] r IH]; intros a b; cbn [bounds_attrs]; ns. Qed.
Lemma ns_try A st (r : outcome A) f : nostop r -> (forall a, nostop (snd (f a))) -> nostop (snd (x_try st r f)).
Proof. intros H G. destruct r; cbn; auto; try discriminate. intros E. injection E as ->. now apply H. Qed.
Lemma ns_start n a st : nostop (snd (start_element n a st)).
Proof.
  assert (O : forall d h, nostop (init_object d h a)) by (intros; apply ns_init_attrs).
  unfold start_element. destruct (x_ctx st); try discriminate.
  - destruct (is_root_name n); [|discriminate]. apply ns_try; [apply ns_root|discriminate].
  - unfold start_top. repeat (match goal with |- context[if ?b then _ else _] => destruct b end; try discriminate);
      try (apply ns_try; [auto; apply ns_bounds|intros; discriminate]).
  - unfold start_in_way. destruct (String.eqb n "nd"); [|discriminate].
    destruct (x_cur (x_child st)); try discriminate. apply ns_try; [apply ns_nd|discriminate].
  - unfold start_in_relation. destruct (String.eqb n "member"); [|discriminate].
    destruct (x_cur (x_child st)); try discriminate. apply ns_try; [apply ns_mem|]. intros [[t ref] role].
    unfold add_member. destruct (slen role >? max_length_role); discriminate.
Qed.
Lemma ns_end n st : nostop (snd (end_element n st)).
Proof. unfold end_element. destruct (x_ctx st); try discriminate. destruct (is_root_name n); [discriminate|]. destruct (String.eqb n "delete"); discriminate. Qed.
Lemma ns_events es : forall st, nostop (snd (x_events es st)).
Proof.
  induction es as [|e r IH]; intros st; cbn [x_events]; [discriminate|].
  assert (H : nostop (snd (x_event e st))) by (destruct e; [apply ns_start|apply ns_end]).
  destruct (x_event e st) as [st' [u|x| |]]; cbn [snd] in *; auto.
Qed.
Section Expat.
  Context {E : Type}.
  Variable expat : E -> string -> bool -> E * list event * bool.
  Lemma ns_buffer e b d st : nostop (snd (snd (parse_buffer expat e b d st))).
  Proof.
    unfold parse_buffer. destruct (expat e b d) as [[e' evs] ok]. pose proof (ns_events evs st) as H.
    destruct (x_events evs st) as [st' [u|x| |]]; cbn [snd] in *; auto. destruct ok; discriminate.
  Qed.
  Lemma ns_loop l : forall e st, nostop (snd (parse_loop expat l e st)).
  Proof.
    induction l as [|b r IH]; intros e st; cbn [parse_loop]; [apply ns_buffer|].
    destruct b as [b|]; [|discriminate]. destruct b as [|c s]; [apply ns_buffer|].
    pose proof (ns_buffer e (String c s) false st) as H.
    destruct (parse_buffer expat e (String c s) false st) as [e' [st' [u|x| |]]]; cbn [snd] in *; auto.
  Qed.
  Lemma ns_read_xml e l : nostop (snd (read_xml expat e l)).
  Proof. apply ns_loop. Qed.
End Expat.
