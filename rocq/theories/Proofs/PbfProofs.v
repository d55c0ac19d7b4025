(** Writing a whole PBF file and reading it back. *)
From Verif Require Import Base.Prelude Base.SMap Model.Osm Model.Float Model.Utils Model.Attr Model.OsmFile Model.Handler Model.Pbf
  Spec.UtilsSpec Spec.TagsSpec Spec.HandlerSpec Spec.PbfSpec Proofs.UtilsProofs Proofs.PbfFrameProofs Proofs.PbfStringProofs Proofs.PbfDecodeProofs
  Proofs.PbfWriteProofs Proofs.PbfBlockProofs.

Section Run.
Variables (K : codec) (c : pcfg) (ec et fc ft : Z -> Z) (T : Z -> Prop).
Hypothesis HK : codec_ok K.
Hypothesis WC : forall x, in_i32 x -> lonlat2int (cf_gran c) (fix_to_double x) = Ok (ec x).
Hypothesis WT : forall t, T t -> timestamp2int (cf_dgran c) t = Ok (et t).
Hypothesis HC : forall x, in_i32 x -> exists y, decode_coord (ec x) (to_i32 (cf_gran c)) 0 = Ok y /\ to_i32 y = fc x.
Hypothesis HT : forall t, T t -> i64 (et t * Z.quot (to_i32 (cf_dgran c)) 1000) = Ok (ft t).
Hypothesis HE : forall x, in_i32 x -> in_i64 (ec x).
Hypothesis HF : forall t, T t -> in_i64 (et t).
Notation winv := (winv c ec et).
Notation obj_fine := (obj_fine T).
Notation good_block := (good_block c ec et fc ft).
Definition data (ps : list bytes) : list (string * bytes) := map (fun b => ("OSMData"%string, b)) ps.
Lemma data_app a b : data (a ++ b) = data a ++ data b.
Proof. apply map_app. Qed.

Record run (s0 : list wres) (h : bytes) (chunks : list (list object)) (ps : list bytes) (l : list object) (w : pwriter) : Prop := {
  rn_inv : winv l w;
  rn_len : Z.of_nat (List.length l) <= 8000;
  rn_fine : Forall obj_fine l;
  rn_room : room (flat_map (recorded c) l);
  rn_file : store_all K (cf_compress c) (("OSMHeader"%string, h) :: data ps) (mkOfd [] s0) = Ok (w_fd w);
  rn_blocks : Forall2 (fun ch p => ch <> [] /\ Z.of_nat (List.length ch) <= 8000 /\ exists b, p = ser_pb K b /\ good_block ch b) chunks ps }.

Lemma run_flush s0 h chunks ps l w w' : run s0 h chunks ps l w -> l <> [] -> store_primitive_block K c w = Ok w' ->
  exists p, run s0 h (chunks ++ [l]) (ps ++ [p]) [] w'.
Proof.
  intros [I1 I2 I3 I4 I5 I6] NE E. unfold store_primitive_block in E.
  destruct (final_block_good K c ec et fc ft T HK HC HT HE HF l w I1 I3 I2 I4) as (b & EB & GB). rewrite EB in E. cbn [obind] in E.
  destruct (store_blob K (cf_compress c) "OSMData" (ser_pb K b) (w_fd w)) as [f|e| |] eqn:ES; cbn [obind] in E; try discriminate.
  injection E as <-. exists (ser_pb K b). constructor.
  - apply (winv_new c ec et f).
  - cbn; lia.
  - constructor.
  - unfold room. cbn. lia.
  - cbn [w_fd]. rewrite data_app, app_comm_cons, store_all_app, I5. cbn [obind data map store_all]. rewrite ES. reflexivity.
  - apply Forall2_app; [exact I6|]. constructor; [|constructor]. split; [exact NE|]. split; [exact I2|]. eauto.
Qed.
Lemma room_texts l : Z.of_nat (distinct_strings (flat_map texts l)) <= 65535 -> room (flat_map (recorded c) l).
Proof.
  apply room_incl. intros s. rewrite !in_flat_map. intros (o & Ho & Hs). exists o. split; [exact Ho|]. eapply recorded_incl; exact Hs.
Qed.
Lemma run_object s0 h chunks ps l w o w' : run s0 h chunks ps l w -> obj_fine o ->
  (Z.of_nat (List.length l) < 8000 -> room (flat_map (recorded c) (l ++ [o]))) -> room (flat_map (recorded c) [o]) ->
  pbf_object K c o w = Ok (w', None) ->
  exists chunks' ps' l', run s0 h chunks' ps' l' w' /\ List.concat chunks' ++ l' = List.concat chunks ++ l ++ [o] /\ (l' = l ++ [o] \/ l' = [o]).
Proof.
  intros RN HO HR1 HR2 E. unfold pbf_object, check_block_contents_counter in E.
  set (w1 := if w_contents w >=? max_block_contents then _ else _) in E.
  assert (X : forall v, w1 = Ok v -> exists chunks' ps' l', run s0 h chunks' ps' l' v /\ List.concat chunks' ++ l' = List.concat chunks ++ l /\
    Z.of_nat (List.length l') < 8000 /\ (l' = l \/ l' = [])).
  { intros v Ev. subst w1. pose proof (rn_inv _ _ _ _ _ _ RN) as I. pose proof (wi_contents _ _ _ _ _ I) as EC. pose proof (rn_len _ _ _ _ _ _ RN) as HL.
    assert (FL : l <> [] -> store_primitive_block K c w = Ok v -> exists chunks' ps' l', run s0 h chunks' ps' l' v /\
      List.concat chunks' ++ l' = List.concat chunks ++ l /\ Z.of_nat (List.length l') < 8000 /\ (l' = l \/ l' = [])).
    { intros NE ES. destruct (run_flush _ _ _ _ _ _ _ RN NE ES) as (p & RN'). exists (chunks ++ [l]), (ps ++ [p]), [].
      split; [exact RN'|]. split; [|split; [cbn; lia|auto]]. rewrite concat_app. cbn. rewrite !app_nil_r. reflexivity. }
    rewrite EC in Ev. unfold max_block_contents in Ev. destruct (_ >=? 8000) eqn:E1 in Ev.
    - apply FL; [|exact Ev]. intros ->. cbn in E1. discriminate.
    - destruct (w_size w >? _) eqn:E2 in Ev.
      + apply FL; [|exact Ev]. intros ->. rewrite (wi_size _ _ _ _ _ I eq_refl) in E2. discriminate.
      + injection Ev as <-. exists chunks, ps, l. split; [exact RN|]. split; [reflexivity|]. split; [lia|auto]. }
  destruct w1 as [v|?| |] eqn:E1; cbn [obind] in E; try discriminate. destruct (X v eq_refl) as (ch' & ps' & l' & RN' & EQ & HL & HL').
  assert (HR : room (flat_map (recorded c) (l' ++ [o]))) by (destruct HL' as [->| ->]; [auto|exact HR2]). clear HR1 HR2.
  pose proof (need_group_ok c ec et T WC WT l' o v (rn_inv _ _ _ _ _ _ RN') HL) as I2. set (w2 := need_group _ _) in *.
  assert (EF : w_fd w2 = w_fd v) by (unfold w2; rewrite need_group_fd; reflexivity). clearbody w2.
  assert (Y : winv (l' ++ [o]) w' /\ w_fd w' = w_fd w2).
  { destruct o as [n|y|y].
    - destruct (cf_dense c) eqn:ED.
      + destruct (write_dense_node c n w2) as [w3|?| |] eqn:EW; cbn [obind] in E; try discriminate. injection E as <-.
        pose proof (write_dense_room c ec et T WC WT n w2 w3 HO EW) as DR.
        destruct (write_dense_step c ec et T WC WT l' n w2 ED I2 HO DR HR) as (w4 & EW' & IW & IF). rewrite EW in EW'. injection EW' as <-. auto.
      + destruct (write_node_step c ec et T WC WT l' n w2 ED I2 HO HR) as (w4 & EW' & IW & IF). rewrite EW' in E. cbn [obind] in E. injection E as <-. auto.
    - destruct (write_way K c y w2) as [w3|?| |] eqn:EW; cbn [obind] in E; try discriminate. injection E as <-.
      destruct (write_way_room K c T y w2 w3 HO EW) as (xs & EX).
      destruct (write_way_step K c ec et T WT l' y w2 xs I2 HO EX HR) as (w4 & EW' & IW & IF). rewrite EW in EW'. injection EW' as <-. auto.
    - destruct (write_rel_step K c ec et T WT l' y w2 I2 HO HR _ E) as [(w4 & EW & IW & IF)|[(w4 & e & EW)|N]]; [|discriminate|destruct (N _ eq_refl)].
      injection EW as <-. auto. }
  destruct Y as [Y1 Y2]. exists ch', ps', (l' ++ [o]). split; [|split].
  - constructor; [exact Y1| | |exact HR| |exact (rn_blocks _ _ _ _ _ _ RN')].
    + rewrite app_length. cbn [List.length]. lia.
    + apply Forall_app. split; [exact (rn_fine _ _ _ _ _ _ RN')|constructor; [exact HO|constructor]].
    + rewrite Y2, EF. apply RN'.
  - rewrite app_assoc, EQ, <- app_assoc. reflexivity.
  - destruct HL' as [->| ->]; auto.
Qed.
Lemma run_objects s0 h os : forall done chunks ps l w w', run s0 h chunks ps l w -> List.concat chunks ++ l = done ->
  Forall obj_fine os -> few_texts (done ++ os) -> pbf_objects K c os w = Ok w' ->
  exists chunks' ps' l', run s0 h chunks' ps' l' w' /\ List.concat chunks' ++ l' = done ++ os.
Proof.
  induction os as [|o os IH]; intros done chunks ps l w w' RN ED HA FT E; cbn [pbf_objects] in E.
  - injection E as <-. exists chunks, ps, l. rewrite app_nil_r. auto.
  - inversion HA as [|? ? HO HA']; subst. destruct (pbf_object K c o w) as [[w1 e]|?| |] eqn:EO; cbn [obind] in E; try discriminate.
    destruct e; [discriminate|].
    destruct (run_object _ _ _ _ _ _ _ w1 RN HO) as (ch1 & ps1 & l1 & RN1 & EQ & _).
    + intros HL. apply room_texts. apply (FT (List.concat chunks) (l ++ [o]) os); [rewrite <- !app_assoc; reflexivity|].
      rewrite app_length. cbn [List.length]. lia.
    + apply room_texts. apply (FT (List.concat chunks ++ l) [o] os); [reflexivity|cbn; lia].
    + exact EO.
    + destruct (IH ((List.concat chunks ++ l) ++ [o]) _ _ _ _ w' RN1 ltac:(rewrite EQ, app_assoc; reflexivity) HA') as (ch2 & ps2 & l2 & RN2 & EQ2).
      * rewrite <- (app_assoc _ [o]). exact FT.
      * exact E.
      * exists ch2, ps2, l2. split; [exact RN2|]. rewrite EQ2, <- app_assoc. reflexivity.
Qed.

Definition good_chunk (ch : list object) (p : bytes) : Prop := exists b, p = ser_pb K b /\ good_block ch b.
Lemma write_gen m os sched file : Forall obj_fine os -> few_texts os -> write_pbf K c m os sched = Ok file ->
  exists hb chunks ps f, header_of c m = Ok hb /\ List.concat chunks = os /\
    Forall (fun ch => ch <> [] /\ Z.of_nat (List.length ch) <= 8000) chunks /\ Forall2 good_chunk chunks ps /\
    store_all K (cf_compress c) (("OSMHeader"%string, ser_hb K hb) :: data ps) (mkOfd [] sched) = Ok f /\ fd_out f = file.
Proof.
  intros HA FT E. unfold write_pbf, pbf_init in E. destruct (header_of c m) as [hb|?| |] eqn:EH; cbn [obind] in E; try discriminate.
  destruct (store_blob K (cf_compress c) "OSMHeader" (ser_hb K hb) _) as [f|?| |] eqn:ES; cbn [obind] in E; try discriminate.
  change (w_fd (pwriter_new (mkOfd [] sched))) with (mkOfd [] sched) in ES.
  change (with_fd f (pwriter_new (mkOfd [] sched))) with (pwriter_new f) in E.
  destruct (pbf_objects K c os (pwriter_new f)) as [w2|?| |] eqn:EO; cbn [obind] in E; try discriminate.
  destruct (run_objects sched (ser_hb K hb) os [] [] [] [] (pwriter_new f) w2) as (ch & ps & l & RN & EQ); auto.
  { constructor; [apply winv_new|cbn; lia|constructor|unfold room; cbn; lia|cbn [data map store_all]; rewrite ES; reflexivity|constructor]. }
  destruct (pbf_final K c w2) as [w3|?| |] eqn:EF; cbn [obind] in E; try discriminate. injection E as E. cbn [app] in EQ.
  assert (X : exists ch ps, List.concat ch = os /\ run sched (ser_hb K hb) ch ps [] w3).
  { unfold pbf_final in EF. rewrite (wi_contents _ _ _ _ _ (rn_inv _ _ _ _ _ _ RN)) in EF. destruct (_ >? 0) eqn:EG in EF.
    - destruct (run_flush _ _ _ _ _ _ w3 RN) as (p & RN'); [intros ->; discriminate|exact EF|].
      exists (ch ++ [l]), (ps ++ [p]). split; [|exact RN']. rewrite concat_app. cbn. rewrite app_nil_r. exact EQ.
    - injection EF as <-. destruct l; [|cbn in EG; lia]. exists ch, ps. rewrite app_nil_r in EQ. auto. }
  destruct X as (ch' & ps' & EQ' & RN'). exists hb, ch', ps', (w_fd w3). split; [reflexivity|]. split; [exact EQ'|].
  pose proof (rn_blocks _ _ _ _ _ _ RN') as B. split; [|split; [|split; [apply RN'|exact E]]].
  - clear - B. induction B as [|a b la lb (A & B & _) _ IH]; constructor; auto.
  - clear - B. induction B as [|a b la lb (A & B & D) _ IH]; constructor; auto.
Qed.

(* ---- reading ---- *)
Lemma header_reads m hb : header_of c m = Ok hb -> exists m', parse_header (cf_type c) hb meta_new = Ok m'.
Proof.
  unfold header_of. destruct (if bounds_defined _ then _ else _) as [bb|?| |]; cbn [obind]; try discriminate. intros [= <-].
  unfold parse_header. cbn [hb_features hb_program].
  destruct (cf_dense c), (cf_type c); cbn; eauto.
Qed.
Lemma d_to_i64_range x n : d_to_i64 x = Ok n -> in_i64 n.
Proof. unfold d_to_i64, d_cast. unfold in_i64. repeat match goal with |- context [match ?b with _ => _ end] => destruct b eqn:? end; intros [= <-]; lia. Qed.
Lemma header_of_fits m hb : header_of c m = Ok hb -> header_fits hb.
Proof.
  unfold header_of, header_fits. cbv zeta. destruct (bounds_defined _).
  - intros E.
    destruct (d_to_i64 (d_mul (pos_lon (bottom_left (mt_bounds m))) _)) as [x1|?| |] eqn:E1; cbn [obind] in E; try discriminate.
    destruct (d_to_i64 (d_mul (pos_lat (bottom_left (mt_bounds m))) _)) as [x2|?| |] eqn:E2; cbn [obind] in E; try discriminate.
    destruct (d_to_i64 (d_mul (pos_lon (top_right (mt_bounds m))) _)) as [x3|?| |] eqn:E3; cbn [obind] in E; try discriminate.
    destruct (d_to_i64 (d_mul (pos_lat (top_right (mt_bounds m))) _)) as [x4|?| |] eqn:E4; cbn [obind] in E; try discriminate.
    injection E as <-. cbn. repeat split; eapply d_to_i64_range; eassumption.
  - cbn [obind]. intros [= <-]. exact I.
Qed.
Lemma parse_blobs_good ty m chunks ps : Forall2 good_chunk chunks ps -> Forall (fun p => blen p <= limit) ps ->
  parse_blobs K ty (data ps) (Ok tt) m = mkPRd (flat_map (fun ch => by_kind (map (kept_with c fc ft) ch)) chunks) m (Ok tt).
Proof.
  induction 1 as [|ch p chunks ps (b & -> & HB & HP & _) _ IH]; intros HS; [reflexivity|]. inversion HS as [|? ? H1 H2]; subst.
  cbn [data map parse_blobs String.eqb Ascii.eqb Bool.eqb].
  change (String.eqb "OSMData" "OSMData") with true. cbv iota.
  rewrite (ok_pb K HK b HB H1), HP. fold (data ps). rewrite (IH H2). reflexivity.
Qed.
Lemma read_gen m hb chunks ps f sched s : header_of c m = Ok hb -> Forall2 good_chunk chunks ps -> writes_complete sched ->
  store_all K (cf_compress c) (("OSMHeader"%string, ser_hb K hb) :: data ps) (mkOfd [] sched) = Ok f ->
  small K (cf_compress c) (ser_hb K hb) -> Forall (small K (cf_compress c)) ps -> reads_ok s ->
  exists m', parse_header (cf_type c) hb meta_new = Ok m' /\
    read_pbf K (cf_type c) (mkIfd (fd_out f) s) = mkPRd (flat_map (fun ch => by_kind (map (kept_with c fc ft) ch)) chunks) m' (Ok tt).
Proof.
  intros EH HG HW ES SH SP RS. destruct (header_reads m hb EH) as (m' & EM). exists m'. split; [exact EM|].
  destruct (fun H => store_all_read K (cf_compress c) _ (mkOfd [] sched) f HK HW H ES) as (fs & EO & FB).
  { constructor; [split; [cbn; lia|exact SH]|]. unfold data. apply Forall_map. eapply Forall_impl; [|exact SP]. intros p Hp. split; [cbn; lia|exact Hp]. }
  cbn [fd_out app] in EO. unfold read_pbf. rewrite EO, <- (app_nil_r (List.concat fs)).
  rewrite (read_blobs_complete K _ fs [] s FB RS ltac:(cbn; lia)).
  cbn [parse_blobs]. change (String.eqb "OSMHeader" "OSMData") with false. change (String.eqb "OSMHeader" "OSMHeader") with true. cbv iota.
  rewrite (ok_hb K HK hb (header_of_fits m hb EH) (proj1 SH)), EM. apply parse_blobs_good; [exact HG|].
  eapply Forall_impl; [|exact SP]. intros p Hp. apply Hp.
Qed.
End Run.

(* ---- order of the objects ---- *)
Lemma kinds_app_type t ns l : (forall o, In o ns -> obj_type o = t) -> forall seen, existsb (otype_eqb t) seen = true -> kinds seen (ns ++ l) = kinds seen l.
Proof.
  intros H seen Hs. induction ns as [|o ns IH]; [reflexivity|]. cbn [app kinds]. rewrite (H o (or_introl eq_refl)), Hs. apply IH. intros x Hx. apply H. right; exact Hx.
Qed.
Lemma ofilter_app t a b : ofilter t (a ++ b) = ofilter t a ++ ofilter t b.
Proof. apply filter_app. Qed.
Lemma ofilter_all t a : (forall o, In o a -> obj_type o = t) -> ofilter t a = a.
Proof.
  unfold ofilter. induction a as [|o a IH]; intros H; [reflexivity|]. cbn. rewrite (H o (or_introl eq_refl)). destruct (otype_eqb_spec t t); [|congruence].
  rewrite IH; [reflexivity|]. intros x Hx. apply H. right; exact Hx.
Qed.
Lemma ofilter_none t t' a : (forall o, In o a -> obj_type o = t) -> t <> t' -> ofilter t' a = [].
Proof.
  unfold ofilter. induction a as [|o a IH]; intros H N; [reflexivity|]. cbn. rewrite (H o (or_introl eq_refl)). destruct (otype_eqb_spec t t'); [congruence|].
  apply IH; [|exact N]. intros x Hx. apply H. right; exact Hx.
Qed.
Lemma sorted_by_kind l : type_sorted l -> flat_map snd (by_kind l) = l.
Proof.
  intros (ns & ws & rs & -> & HN & HW & HR). unfold by_kind.
  assert (EN : ofilter NODE (ns ++ ws ++ rs) = ns).
  { rewrite !ofilter_app, (ofilter_all _ _ HN), (ofilter_none _ _ _ HW), (ofilter_none _ _ _ HR) by discriminate. rewrite !app_nil_r. reflexivity. }
  assert (EW : ofilter WAY (ns ++ ws ++ rs) = ws).
  { rewrite !ofilter_app, (ofilter_all _ _ HW), (ofilter_none _ _ _ HN), (ofilter_none _ _ _ HR) by discriminate. rewrite app_nil_r. reflexivity. }
  assert (ER : ofilter RELATION (ns ++ ws ++ rs) = rs).
  { rewrite !ofilter_app, (ofilter_all _ _ HR), (ofilter_none _ _ _ HN), (ofilter_none _ _ _ HW) by discriminate. reflexivity. }
  set (all := ns ++ ws ++ rs) in *.
  assert (K3 : forall seen, existsb (otype_eqb RELATION) seen = false ->
    flat_map snd (map (fun t => (t, ofilter t all)) (kinds seen rs)) = rs).
  { intros seen Hs. destruct rs as [|r rs]; [reflexivity|]. cbn [kinds]. rewrite (HR r (or_introl eq_refl)), Hs.
    rewrite <- (app_nil_r rs), (kinds_app_type RELATION rs []); [|intros o Ho; apply HR; right; exact Ho|reflexivity].
    cbn [kinds map flat_map snd]. rewrite ER, !app_nil_r. reflexivity. }
  assert (K2 : forall seen, existsb (otype_eqb WAY) seen = false -> existsb (otype_eqb RELATION) seen = false ->
    flat_map snd (map (fun t => (t, ofilter t all)) (kinds seen (ws ++ rs))) = ws ++ rs).
  { intros seen Hs Hs'. destruct ws as [|r ws']; [apply K3; exact Hs'|]. cbn [kinds app]. rewrite (HW r (or_introl eq_refl)), Hs.
    rewrite (kinds_app_type WAY ws' rs); [|intros o Ho; apply HW; right; exact Ho|reflexivity].
    cbn [map flat_map snd]. rewrite EW, K3; [reflexivity|]. cbn. exact Hs'. }
  unfold all at 2. destruct ns as [|r ns']; [apply K2; reflexivity|]. cbn [kinds app existsb]. rewrite (HN r (or_introl eq_refl)).
  rewrite (kinds_app_type NODE ns' (ws ++ rs)); [|intros o Ho; apply HN; right; exact Ho|reflexivity].
  cbn [map flat_map snd]. rewrite EN, K2; reflexivity.
Qed.
(** pieces of a sorted list are sorted *)
Lemma app_split {A} (a b c d : list A) : a ++ b = c ++ d -> (exists x, c = a ++ x /\ b = x ++ d) \/ (exists x, a = c ++ x /\ d = x ++ b).
Proof.
  revert c. induction a as [|y a IH]; intros c E; [left; exists c; auto|]. destruct c as [|z c].
  - right. exists (y :: a). auto.
  - injection E as <- E. destruct (IH c E) as [(x & -> & ->)|(x & -> & ->)]; [left|right]; exists x; auto.
Qed.
Lemma sorted_piece a b : type_sorted (a ++ b) -> type_sorted a /\ type_sorted b.
Proof.
  intros (ns & ws & rs & E & HN & HW & HR). apply app_split in E as [(x & -> & ->)|(x & -> & E)].
  - split; [exists a, [], []|exists x, ws, rs]; rewrite ?app_nil_r; (split; [reflexivity|]); repeat split; auto; try (intros o []); intros o Ho; apply HN; rewrite in_app_iff; auto.
  - symmetry in E. apply app_split in E as [(y & -> & ->)|(y & -> & ->)].
    + split; [exists ns, x, []|exists [], y, rs]; rewrite ?app_nil_r; (split; [reflexivity|]); repeat split; auto; try (intros o []); intros o Ho; apply HW; rewrite in_app_iff; auto.
    + split; [exists ns, ws, y|exists [], [], b]; (split; [rewrite ?app_assoc; reflexivity|]); repeat split; auto; try (intros o []); intros o Ho; apply HR; rewrite in_app_iff; auto.
Qed.
Lemma sorted_map f l : (forall o, obj_type (f o) = obj_type o) -> type_sorted l -> type_sorted (map f l).
Proof.
  intros H (ns & ws & rs & -> & HN & HW & HR). exists (map f ns), (map f ws), (map f rs). rewrite !map_app. split; [reflexivity|].
  repeat split; intros o Ho; apply in_map_iff in Ho as (o' & <- & Ho'); rewrite H; auto.
Qed.
Lemma sorted_chunks f chunks : (forall o, obj_type (f o) = obj_type o) -> type_sorted (List.concat chunks) ->
  flat_map snd (flat_map (fun ch => by_kind (map f ch)) chunks) = map f (List.concat chunks).
Proof.
  intros H. induction chunks as [|ch chunks IH]; intros HS; [reflexivity|]. cbn [List.concat] in HS. apply sorted_piece in HS as [H1 H2].
  cbn [flat_map List.concat]. rewrite flat_map_app, map_app, (IH H2), sorted_by_kind; [reflexivity|]. apply sorted_map; assumption.
Qed.
(** within each type the order is that of the writing *)
Lemma by_kind_only t l : only t (by_kind l) = ofilter t l.
Proof.
  unfold only, by_kind. assert (G : forall ks, NoDup ks -> flat_map snd (filter (fun g => otype_eqb (fst g) t) (map (fun t => (t, ofilter t l)) ks)) =
    if in_dec (fun a b : otype => ltac:(decide equality)) t ks then ofilter t l else []).
  { induction 1 as [|k ks N _ IH]; [reflexivity|]. cbn [map filter fst]. destruct (otype_eqb_spec k t) as [->|NE].
    - cbn [flat_map snd]. rewrite IH. destruct (in_dec _ t ks); [contradiction|]. destruct (in_dec _ t (t :: ks)) as [|NI]; [apply app_nil_r|]. destruct NI; left; reflexivity.
    - rewrite IH. destruct (in_dec _ t ks), (in_dec _ t (k :: ks)) as [I|NI]; cbn in *; try reflexivity; [exfalso; apply NI; auto|]. destruct I; [congruence|contradiction]. }
  rewrite G by apply kinds_nodup. destruct (in_dec _ t (kinds [] l)) as [I|NI]; [reflexivity|].
  symmetry. unfold ofilter. destruct (filter _ l) as [|o r] eqn:E; [reflexivity|]. exfalso. apply NI. apply kinds_in. split; [|intros []].
  assert (Ho : In o (filter (fun o => otype_eqb (obj_type o) t) l)) by (rewrite E; left; reflexivity).
  apply filter_In in Ho as [Ho Et]. destruct (otype_eqb_spec (obj_type o) t) as [<-|]; [|discriminate]. apply in_map. exact Ho.
Qed.
Lemma only_app t a b : only t (a ++ b) = only t a ++ only t b.
Proof. unfold only. rewrite filter_app, flat_map_app. reflexivity. Qed.
Lemma chunks_only t f chunks : (forall o, obj_type (f o) = obj_type o) ->
  only t (flat_map (fun ch => by_kind (map f ch)) chunks) = ofilter t (map f (List.concat chunks)).
Proof.
  intros H. induction chunks as [|ch chunks IH]; [reflexivity|]. cbn [flat_map List.concat]. rewrite only_app, IH, by_kind_only, map_app, ofilter_app. reflexivity.
Qed.
