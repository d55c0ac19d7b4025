(** Proofs about Model/Shapefile.v: narrow fields, files and their sizes. *)
From Verif Require Import Base.Prelude Model.Osm Model.Geom Model.Shapefile Spec.ShapefileSpec Proofs.ShapefileProofs.

Lemma fitting_0 cs : Forall utf8_char cs -> fitting 0 cs = [].
Proof. intros U. destruct U as [|c cs Uc U]; auto. inversion Uc; reflexivity. Qed.
Lemma truncate_1 cs : Forall utf8_char cs -> truncate 1 (List.concat cs) = Ok (List.concat (fitting 1 cs)).
Proof.
  intros U. rewrite truncate_tail by lia. change (Z.to_nat 1) with 1%nat. cbn [Nat.sub]. destruct U as [|c cs Uc U]; [reflexivity|].
  assert (G : forall x r, 192 <= x < 256 -> tail3 0 (x :: r) = Ok []) by (intros x r H; apply (tail3_lead [] x r); auto).
  inversion Uc as [x Hx Ex|x y Hx Hy Ex|x y z Hx Hy Hz Ex|x y z t Hx Hy Hz Ht Ex]; subst; cbn [List.concat app strncpy fitting List.length Nat.leb Nat.sub]; try (apply G; lia).
  rewrite fitting_0 by auto. cbn [List.concat app]. etransitivity; [apply (tail3_ascii [] x [0]); [auto|lia]|]. f_equal. apply (cstr_zero [x] []). repeat constructor. lia.
Qed.
Lemma truncate_2 cs : Forall utf8_char cs ->
  truncate 2 (List.concat cs) = if match cs with c :: _ => (List.length c =? 2)%nat | [] => false end then UB else Ok (List.concat (fitting 2 cs)).
Proof.
  intros U. rewrite truncate_tail by lia. change (Z.to_nat 2) with 2%nat. cbn [Nat.sub]. destruct U as [|c cs Uc U]; [reflexivity|].
  inversion Uc as [x Hx Ex|x y Hx Hy Ex|x y z Hx Hy Hz Ex|x y z t Hx Hy Hz Ht Ex]; subst; cbn [List.concat app strncpy fitting List.length Nat.leb Nat.eqb Nat.sub].
  - assert (Gx : Forall good [x]) by (repeat constructor; unfold good; lia).
    assert (G : forall y r, 192 <= y < 256 -> tail3 1 (x :: y :: r) = Ok [x]) by (intros y r H; apply (tail3_lead [x] y r); auto).
    destruct U as [|d cs Ud U]; cbn [List.concat app strncpy fitting List.length Nat.leb].
    + etransitivity; [apply (tail3_ascii [x] 0 [0]); [auto|lia]|]. f_equal. apply (cstr_zero [x] [0]). now apply good_nz.
    + inversion Ud as [a Ha Ea|a b Ha Hb Ea|a b c Ha Hb Hc Ea|a b c e Ha Hb Hc He Ea]; subst; cbn [List.concat app List.length Nat.leb Nat.sub strncpy]; try (apply G; lia).
      rewrite fitting_0 by auto. cbn [List.concat app]. etransitivity; [apply (tail3_ascii [x] a [0]); [auto|lia]|]. f_equal. apply (cstr_zero [x; a] []). repeat constructor; lia.
  - etransitivity; [apply (tail3_cont_at [] x y [0]); [auto|unfold good; lia]|]. destruct (Z.leb_spec 224 x); [lia|]. reflexivity.
  - apply (tail3_cont2 [] x y [0]); auto; lia.
  - apply (tail3_cont2 [] x y [0]); auto; lia.
Qed.

(* ---- sizes ---- *)
Lemma length_thm s : sizes_ok s -> length_on_disk s = match esri_record s with Some n => Ok n | None => Throw ERuntime end.
Proof.
  intros (Hp & Hv & Hv2 & Hp2). unfold length_on_disk, esri_record, imul. unfold int32_max in *.
  assert (B2 : in_i32b (s_vertices s * 2) = true) by (apply in_i32b_spec; unfold in_i32, int32_min, int32_max; lia).
  assert (B3 : in_i32b (s_vertices s * 3) = true) by (apply in_i32b_spec; unfold in_i32, int32_min, int32_max; lia).
  assert (B4 : in_i32b (s_vertices s * 4) = true) by (apply in_i32b_spec; unfold in_i32, int32_min, int32_max; lia).
  assert (BP : in_i32b (s_parts s * 2) = true) by (apply in_i32b_spec; unfold in_i32, int32_min, int32_max; lia).
  rewrite B2, B3, B4, BP. unfold to_u64. cbn [obind].
  destruct (s_type s); cbn zeta; try reflexivity; f_equal; rewrite ?(Z.mod_small (s_parts s)), ?(Z.mod_small (s_parts s * 2)) by lia;
    rewrite ?(Z.mod_small (s_vertices s * 2)), ?(Z.mod_small (s_vertices s * 3)), ?(Z.mod_small (s_vertices s * 4)) by lia; rewrite Z.mod_small by lia; lia.
Qed.
Lemma record_nonneg s : sizes_ok s -> 0 <= record_size s.
Proof. intros (Hp & Hv & _). unfold record_size, esri_record. destruct (s_type s); lia. Qed.

Lemma zsum_app a b : zsum (a ++ b) = zsum a + zsum b.
Proof. unfold zsum. induction a as [|x a IH]; cbn [app fold_right]; [reflexivity|]. rewrite IH. lia. Qed.

(** fields are within their limits *)
Definition fields_ok (fs : list field) : Prop :=
  Z.of_nat (List.length fs) <= 2047 /\ Forall (fun f => 0 <= f_width f <= 255) fs.
Lemma widths_bound fs : Forall (fun f => 0 <= f_width f <= 255) fs -> 0 <= zsum (map f_width fs) <= 255 * Z.of_nat (List.length fs).
Proof. induction 1 as [|f fs Hf F IH]; [cbn; lia|]. change (zsum (map f_width (f :: fs))) with (f_width f + zsum (map f_width fs)). cbn [List.length]. lia. Qed.

Definition within (f : sfile) : Prop := shp_size f <= max_file_size /\ dbf_size f <= max_file_size.
Definition seqs (s : sstate) (c : sfile) : Prop :=
  map sf_seq (ss_done s ++ [c]) = map (fun k => to_u32 (Z.of_nat k)) (seq 0 (List.length (ss_done s ++ [c]))) /\ sf_seq c = ss_seq s.
Record Inv (fs : list field) (s : sstate) (c : sfile) : Prop := {
  i_fields : ss_fields s = fs;
  i_ok : fields_ok fs;
  i_cur : ss_cur s = Some c;
  i_same : Forall (fun f => sf_fields f = fs) (ss_done s ++ [c]);
  i_within : Forall within (ss_done s);
  i_len : ss_reclen s = 1 + zsum (map f_width fs);
  i_shp : shp_size c <= ss_shpb s <= max_file_size;
  i_dbf : dbf_size c <= ss_dbfb s <= max_file_size;
  i_pos : 0 <= ss_shpb s /\ 0 <= ss_dbfb s;
  i_seqs : seqs s c }.
Definition shapes_of (s : sstate) (c : sfile) : list shp := flat_map sf_shapes (ss_done s ++ [c]).

Lemma reclen_bound fs : fields_ok fs -> 1 <= 1 + zsum (map f_width fs) <= 600000.
Proof. intros [L F]. pose proof (widths_bound fs F). lia. Qed.

Section Run.
  Variable opens : Z -> bool.
  Hypothesis Hopen : forall k, opens k = true.

  Lemma write_inv fs s c o ok len : Inv fs s c -> sizes_ok o -> len = record_size o -> ss_shpb s + len <= max_file_size -> ss_dbfb s + ss_reclen s <= max_file_size ->
    exists s' c' r, write (count s len) o ok = (s', r) /\ Inv fs s' c' /\ ss_type s' = ss_type s /\
      (r = Ok tt /\ shapes_of s' c' = shapes_of s c ++ [o] \/ r = Throw ERuntime /\ shapes_of s' c' = shapes_of s c).
  Proof.
    intros I So -> B1 B2. pose proof (record_nonneg o So) as Rn. destruct I as [I1 I2 I3 I4 I5 I6 I7 I8 I9 I10]. unfold max_file_size in *.
    pose proof (reclen_bound fs I2) as Rl.
    unfold write, count. cbn [ss_cur ss_type ss_fields ss_seq ss_reclen ss_shpb ss_dbfb ss_done]. rewrite I3. unfold to_u32. rewrite !Z.mod_small by lia.
    destruct ok.
    - eexists. exists (mkSF (sf_seq c) (sf_fields c) (sf_shapes c ++ [o])). eexists. split; [reflexivity|]. split; [|split; [reflexivity|left; split; [reflexivity|]]].
      + apply Forall_app in I4 as [I4 I4c]. inversion I4c as [|? ? Ec _]; subst.
        constructor; cbn [ss_cur ss_type ss_fields ss_seq ss_reclen ss_shpb ss_dbfb ss_done]; auto; try lia.
        * apply Forall_app. split; auto.
        * unfold shp_size in *. cbn [sf_shapes]. rewrite map_app, zsum_app. cbn [map zsum fold_right]. unfold max_file_size. lia.
        * unfold dbf_size in *. cbn [sf_shapes sf_fields]. rewrite app_length. cbn [List.length]. rewrite Ec in *. unfold max_file_size. lia.
        * destruct I10 as [Q1 Q2]. split; auto. rewrite map_app in *. rewrite !app_length in *. exact Q1.
      + unfold shapes_of. cbn [ss_done]. rewrite !flat_map_app. cbn. now rewrite !app_nil_r, app_assoc.
    - eexists. exists c. eexists. split; [reflexivity|]. split; [|split; [reflexivity|right; split; reflexivity]].
      constructor; cbn [ss_cur ss_type ss_fields ss_seq ss_reclen ss_shpb ss_dbfb ss_done]; auto; unfold max_file_size; lia.
  Qed.

  Lemma add_geometry_inv fs s c o ok : Inv fs s c -> sizes_ok o -> 100 + record_size o <= 2147483647 ->
    exists s' c' r, add_geometry opens s (Some o) ok = (s', r) /\ Inv fs s' c' /\ ss_type s' = ss_type s /\
      (r = Ok tt /\ shapes_of s' c' = shapes_of s c ++ [o] \/
       (r = Throw ERuntime \/ r = Throw EIllegalGeometry) /\ shapes_of s' c' = shapes_of s c).
  Proof.
    intros I So Sm. unfold add_geometry. rewrite (i_cur _ _ _ I).
    destruct (shptype_eq (s_type o) (ss_type s)) as [Et|Et]; [|exists s, c; eexists; split; [reflexivity|]; auto 8].
    rewrite (length_thm o So). pose proof (record_nonneg o So) as Rn.
    destruct (esri_record o) as [len|] eqn:El; [|exists s, c; eexists; split; [reflexivity|]; auto 8].
    assert (Hlen : len = record_size o) by (unfold record_size; now rewrite El).
    cbn zeta. pose proof I as [I1 I2 I3 I4 I5 I6 I7 I8 I9 I10]. pose proof (reclen_bound fs I2) as Rl. unfold max_file_size in *.
    destruct ((ss_dbfb (count s len) >? 2147483647) || (ss_shpb (count s len) >? 2147483647)) eqn:Ov.
    - (* a new file *)
      clear Ov.
      set (s3 := mkSS _ _ _ _ _ _ _ _). unfold open. rewrite Hopen.
      set (s4 := mkSS (ss_type s3) _ _ _ _ _ _ _). set (c4 := mkSF (ss_seq s3) (ss_fields s3) []).
      assert (I4' : Inv fs s4 c4).
      { destruct I2 as [Lf Wf]. constructor; subst s4 s3 c4; unfold close, count; cbn [ss_cur ss_type ss_fields ss_seq ss_reclen ss_shpb ss_dbfb ss_done sf_seq sf_fields]; auto.
        - split; auto.
        - rewrite I3. apply Forall_app. split; auto.
        - rewrite I3. apply Forall_app. split; auto. repeat constructor; unfold max_file_size; lia.
        - unfold shp_size, size_shapefile_header. cbn. unfold max_file_size. lia.
        - unfold dbf_size, size_dbf_header, size_dbf_field_header. cbn [sf_fields sf_shapes List.length]. rewrite I1. unfold to_u32. rewrite Z.mod_small by lia. unfold max_file_size. lia.
        - unfold size_shapefile_header. split; [lia|]. unfold to_u32. lia.
        - destruct I10 as [Q1 Q2]. split; [|reflexivity]. cbn [sf_seq ss_done]. rewrite I3.
          rewrite map_app, Q1, (app_length _ [mkSF _ _ _]), seq_app, map_app. cbn [List.length Nat.add]. f_equal. cbn [seq map sf_seq]. f_equal.
          rewrite <- Q2. rewrite map_app in Q1. rewrite app_length, seq_app, map_app in Q1. cbn [List.length seq map Nat.add] in Q1.
          apply app_inj_tail in Q1 as [_ Q1]. rewrite Q1, app_length. cbn [List.length]. unfold to_u32. rewrite Nat2Z.inj_add. change (Z.of_nat 1) with 1. lia. }
      assert (Hs4 : ss_shpb s4 = 100 /\ ss_dbfb s4 <= 65537 /\ 0 <= ss_dbfb s4).
      { subst s4 s3. unfold close, count. cbn [ss_shpb ss_dbfb ss_fields]. rewrite I1. unfold size_shapefile_header, size_dbf_header, size_dbf_field_header, to_u32. destruct I2 as [Lf _]. split; auto. lia. }
      destruct (write_inv fs s4 c4 o ok len I4' So Hlen) as (s' & c' & r & E & I' & Et' & R).
      { unfold max_file_size. lia. }
      { rewrite (i_len _ _ _ I4'). unfold max_file_size. lia. }
      exists s', c', r. split; auto. split; auto. split; [rewrite Et'; reflexivity|].
      assert (Sh : shapes_of s4 c4 = shapes_of s c).
      { unfold shapes_of. subst s4 s3 c4. unfold close, count. cbn [ss_done ss_cur]. rewrite I3, (flat_map_app _ _ [mkSF _ _ _]). cbn. now rewrite app_nil_r. }
      rewrite Sh in R. intuition.
    - (* in the same file *)
      apply orb_false_iff in Ov as [O1 O2]. unfold count, to_u32 in O1, O2. cbn [ss_dbfb ss_shpb] in O1, O2.
      rewrite Z.mod_small in O1 by lia. rewrite Z.mod_small in O2 by lia.
      destruct (write_inv fs s c o ok len I So Hlen) as (s' & c' & r & E & I' & Et' & R); unfold max_file_size; try lia.
      exists s', c', r. split; auto. split; auto. split; auto. intuition.
  Qed.

  Lemma run_inv fs xs : Forall small_shape xs -> forall s c, Inv fs s c ->
    exists s' c' os, srun opens s xs = (s', os) /\ Inv fs s' c' /\ shapes_of s' c' = shapes_of s c ++ written xs os /\
      Forall (fun r => r = Ok tt \/ r = Throw ERuntime \/ r = Throw EIllegalGeometry) os.
  Proof.
    induction 1 as [|x xs Hx F IH]; intros s c I; cbn [srun].
    - exists s, c, []. split; auto. split; auto. split; auto. cbn. now rewrite app_nil_r.
    - destruct x as [? ? ? ? ?|[o|] ok]; [destruct Hx| |]; cbn [sstep].
      + destruct Hx as [So Sm]. destruct (add_geometry_inv fs s c o ok I So Sm) as (s1 & c1 & r & E & I1 & _ & R). rewrite E.
        destruct (IH s1 c1 I1) as (s2 & c2 & os & E2 & I2 & Sh & Fo). rewrite E2. exists s2, c2, (r :: os). split; auto. split; auto.
        split; [|constructor; auto; tauto]. rewrite Sh. destruct R as [[-> R]|[[-> | ->] R]]; rewrite R; cbn [written]; rewrite <- ?app_assoc; reflexivity.
      + cbn [add_geometry]. destruct (IH s c I) as (s2 & c2 & os & E2 & I2 & Sh & Fo). rewrite E2. eexists. exists c2. eexists. split; [reflexivity|]. split; auto.
    Qed.

  (** fields first *)
  Lemma add_field_inv s c f ok : Inv (ss_fields s) s c -> ss_done s = [] -> sf_shapes c = [] -> 0 <= f_width f <= 255 ->
    ss_shpb s = 100 -> ss_dbfb s = 33 + 32 * Z.of_nat (List.length (ss_fields s)) ->
    exists s' c' r, add_field s f ok = (s', r) /\ Inv (ss_fields s') s' c' /\ ss_done s' = [] /\ sf_shapes c' = [] /\ ss_shpb s' = 100 /\
      ss_dbfb s' = 33 + 32 * Z.of_nat (List.length (ss_fields s')) /\ ss_type s' = ss_type s /\ (exists e, r = e /\ (e = Ok tt \/ e = Throw ERuntime \/ e = Throw EOutOfRange)).
  Proof.
    intros I D0 S0 Hw Hs Hd. pose proof I as [I1 I2 I3 I4 I5 I6 I7 I8 I9 I10]. pose proof (reclen_bound _ I2) as Rl.
    unfold add_field, max_dbf_fields. destruct (Z.ltb_spec (Z.of_nat (List.length (ss_fields s))) 2047) as [Lt|Ge].
    - rewrite I3. destruct ok.
      + eexists. exists (mkSF (sf_seq c) (sf_fields c ++ [f]) (sf_shapes c)). eexists. split; [reflexivity|]. cbn [ss_cur ss_type ss_fields ss_seq ss_reclen ss_shpb ss_dbfb ss_done sf_shapes].
        unfold size_dbf_field_header, to_u32. rewrite Hd in *. rewrite (Z.mod_small (_ + 32)) by lia. destruct I2 as [Lf Wf].
        split; [|do 3 (split; [assumption||reflexivity|]); split; [rewrite app_length; cbn [List.length]; lia|split; [reflexivity|eauto]]].
        constructor; cbn [ss_cur ss_type ss_fields ss_seq ss_reclen ss_shpb ss_dbfb ss_done]; auto; unfold max_file_size in *.
        * split; [rewrite app_length; cbn [List.length]; lia|]. apply Forall_app. split; auto.
        * rewrite D0. rewrite D0 in I4. cbn [app] in *. inversion I4 as [|? ? Ec _]; subst. repeat constructor. cbn [sf_fields]. now rewrite Ec.
        * rewrite map_app, zsum_app. cbn [map zsum fold_right]. rewrite I6, Z.mod_small by lia. lia.
        * unfold dbf_size in *. cbn [sf_shapes sf_fields]. rewrite S0 in *. cbn [List.length] in *. rewrite app_length. cbn [List.length].
          rewrite D0 in I4. cbn [app] in *. inversion I4 as [|? ? Ec _]; subst. rewrite Ec in *. lia.
        * lia.
        * destruct I10 as [Q1 Q2]. split; auto. rewrite D0 in *. exact Q1.
      + exists s, c. eexists. split; [reflexivity|]. repeat (split; auto). eauto.
    - exists s, c. eexists. split; [reflexivity|]. repeat (split; auto). eauto.
  Qed.
  Definition field_result (r : outcome unit) : Prop := r = Ok tt \/ r = Throw ERuntime \/ r = Throw EOutOfRange \/ r = Throw EInvalidArgument.
  Lemma add_type_inv s c n t w d ok : Inv (ss_fields s) s c -> ss_done s = [] -> sf_shapes c = [] -> 0 <= w ->
    ss_shpb s = 100 -> ss_dbfb s = 33 + 32 * Z.of_nat (List.length (ss_fields s)) ->
    exists s' c' r, add_field_type s n t w d ok = (s', r) /\ Inv (ss_fields s') s' c' /\ ss_done s' = [] /\ sf_shapes c' = [] /\ ss_shpb s' = 100 /\
      ss_dbfb s' = 33 + 32 * Z.of_nat (List.length (ss_fields s')) /\ ss_type s' = ss_type s /\ field_result r.
  Proof.
    intros I D0 S0 Hw Hs Hd. unfold add_field_type, field_new.
    assert (Bad : exists s' c' r, (s, Throw (A := unit) EInvalidArgument) = (s', r) /\ Inv (ss_fields s') s' c' /\ ss_done s' = [] /\ sf_shapes c' = [] /\ ss_shpb s' = 100 /\
      ss_dbfb s' = 33 + 32 * Z.of_nat (List.length (ss_fields s')) /\ ss_type s' = ss_type s /\ field_result r).
    { exists s, c. eexists. split; [reflexivity|]. repeat (split; auto). unfold field_result. auto. }
    destruct (String.eqb n "" || _); auto. unfold max_dbf_field_length. destruct (Z.gtb_spec w 255); auto.
    destruct (add_field_inv s c (mkField n t w d) ok I D0 S0 ltac:(cbn; lia) Hs Hd) as (s' & c' & r & E & H1 & H2 & H3 & H4 & H5 & H6 & e & -> & He).
    exists s', c', e. unfold field_result. intuition.
  Qed.
  Lemma add_name_inv s c n ty w d ok : Inv (ss_fields s) s c -> ss_done s = [] -> sf_shapes c = [] -> 0 <= w ->
    ss_shpb s = 100 -> ss_dbfb s = 33 + 32 * Z.of_nat (List.length (ss_fields s)) ->
    exists s' c' r, add_field_name s n ty w d ok = (s', r) /\ Inv (ss_fields s') s' c' /\ ss_done s' = [] /\ sf_shapes c' = [] /\ ss_shpb s' = 100 /\
      ss_dbfb s' = 33 + 32 * Z.of_nat (List.length (ss_fields s')) /\ ss_type s' = ss_type s /\ field_result r.
  Proof.
    intros I D0 S0 Hw Hs Hd. unfold add_field_name.
    destruct (String.eqb ty "string"); [now apply (add_type_inv s c)|]. destruct (String.eqb ty "integer"); [now apply (add_type_inv s c)|].
    destruct (String.eqb ty "double"); [now apply (add_type_inv s c)|]. destruct (String.eqb ty "bool"); [now apply (add_type_inv s c)|].
    exists s, c. eexists. split; [reflexivity|]. repeat (split; auto). unfold field_result. auto.
  Qed.
  Lemma fields_inv xs : Forall is_field xs -> forall s c, Inv (ss_fields s) s c -> ss_done s = [] -> sf_shapes c = [] ->
    ss_shpb s = 100 -> ss_dbfb s = 33 + 32 * Z.of_nat (List.length (ss_fields s)) ->
    exists s' c' os, srun opens s xs = (s', os) /\ Inv (ss_fields s') s' c' /\ ss_done s' = [] /\ sf_shapes c' = [] /\
      Forall field_result os /\ List.length os = List.length xs.
  Proof.
    induction 1 as [|x xs Hx F IH]; intros s c I D0 S0 Hs Hd; cbn [srun].
    - exists s, c, []. repeat (split; auto).
    - destruct x as [n ty w d ok|? ?]; [|destruct Hx]. cbn [sstep is_field] in *.
      destruct (add_name_inv s c n ty w d ok I D0 S0 Hx Hs Hd) as (s1 & c1 & r & E & I1 & D1 & S1 & Hs1 & Hd1 & _ & R). rewrite E.
      destruct (IH s1 c1 I1 D1 S1 Hs1 Hd1) as (s2 & c2 & os & E2 & I2 & D2 & S2 & Fo & Lo). rewrite E2. exists s2, c2, (r :: os). repeat (split; auto). cbn. now rewrite Lo.
  Qed.
  Lemma srun_app xs ys s : srun opens s (xs ++ ys) =
    let (s1, o1) := srun opens s xs in let (s2, o2) := srun opens s1 ys in (s2, o1 ++ o2).
  Proof.
    revert s. induction xs as [|x xs IH]; intros s; cbn [srun app]; [now destruct (srun opens s ys)|].
    destruct (sstep opens s x) as [s1 o]. rewrite IH. destruct (srun opens s1 xs) as [s2 o2]. destruct (srun opens s2 ys). reflexivity.
  Qed.
  Lemma files_thm type fields shapes : Forall is_field fields -> Forall small_shape shapes ->
    exists s0 s os, shapefile_new opens type = Ok s0 /\ srun opens s0 (fields ++ shapes) = (s, os) /\
      let files := all_files s in
      flat_map sf_shapes files = written shapes (skipn (List.length fields) os) /\
      (forall f, In f files -> shp_size f <= 2147483647 /\ dbf_size f <= 2147483647 /\ sf_fields f = ss_fields s) /\
      map sf_seq files = map (fun k => to_u32 (Z.of_nat k)) (seq 0 (List.length files)) /\
      Forall (fun r => r = Ok tt \/ exists e, r = Throw e) os.
  Proof.
    intros Ff Fs. unfold shapefile_new, open. cbn [ss_seq]. rewrite Hopen. cbn [ss_type ss_fields ss_reclen ss_done List.length].
    set (s0 := mkSS _ _ _ _ _ _ _ _).
    assert (I0 : Inv (ss_fields s0) s0 (mkSF 0 [] [])).
    { constructor; [reflexivity| |reflexivity|repeat constructor|constructor|reflexivity| | | |split; reflexivity].
      - split; [cbn; lia|constructor].
      - split; vm_compute; intros H; discriminate H.
      - split; vm_compute; intros H; discriminate H.
      - split; vm_compute; intros H; discriminate H. }
    destruct (fields_inv fields Ff s0 _ I0 eq_refl eq_refl eq_refl eq_refl) as (s1 & c1 & o1 & E1 & I1 & D1 & S1 & F1 & L1).
    destruct (run_inv (ss_fields s1) shapes Fs s1 c1 I1) as (s2 & c2 & o2 & E2 & I2 & Sh & F2).
    exists s0, s2, (o1 ++ o2). split; auto. split; [now rewrite srun_app, E1, E2|]. cbn zeta. unfold all_files, close. cbn [ss_done].
    pose proof I2 as [J1 J2 J3 J4 J5 J6 J7 J8 J9 J10]. rewrite J3. split; [|split; [|split]].
    - change (flat_map sf_shapes (ss_done s2 ++ [c2])) with (shapes_of s2 c2). rewrite Sh. unfold shapes_of. rewrite D1. cbn. rewrite S1, <- L1. cbn.
      rewrite skipn_app, skipn_all, Nat.sub_diag. reflexivity.
    - intros f If. rewrite J1. rewrite Forall_forall in J4, J5. split; [|split; [|now apply J4]]; apply in_app_iff in If as [If|[<-|[]]]; try (destruct (J5 f If); assumption); unfold max_file_size in *; lia.
    - apply J10.
    - apply Forall_app. split; [eapply Forall_impl; [|exact F1]|eapply Forall_impl; [|exact F2]]; cbn; unfold field_result; intros r H; intuition eauto.
  Qed.
End Run.

Lemma fitting_facts n cs : (List.length (List.concat (fitting n cs)) <= n)%nat /\
  exists rest, cs = fitting n cs ++ rest /\ forall c r, rest = c :: r -> (n < List.length (List.concat (fitting n cs)) + List.length c)%nat.
Proof.
  destruct (fitting_split cs n) as [[E L]|(c & rest & E & L)].
  - rewrite E. split; auto. exists []. split; [now rewrite app_nil_r|]. discriminate.
  - split; [lia|]. exists (c :: rest). split; auto. intros ? ? [= <- <-]. lia.
Qed.

(* ---- late fields ---- *)
Definition late_ops : list sop :=
  repeat (OShape (Some (mkShp SHPT_ARC 1 2 0)) true) (Z.to_nat 4200) ++
  repeat (OField "f" "string" 255 0 true) (Z.to_nat 2047).
Definition late_start : sstate := Eval vm_compute in (match shapefile_new (fun _ => true) SHPT_ARC with Ok s => s | _ => mkSS SHPT_ARC [] 0 0 0 0 [] None end).
Lemma late_results : forallb (fun r => match r with Ok _ => true | _ => false end) (snd (srun (fun _ => true) late_start late_ops)) = true.
Proof. vm_compute. reflexivity. Qed.
Lemma late_size : existsb (fun f => dbf_size f >? 2147483647) (all_files (fst (srun (fun _ => true) late_start late_ops))) = true.
Proof. vm_compute. reflexivity. Qed.
Lemma late_fields : exists xs s0 s, Forall (fun x => is_field x \/ small_shape x) xs /\
  shapefile_new (fun _ => true) SHPT_ARC = Ok s0 /\ fst (srun (fun _ => true) s0 xs) = s /\ Forall (fun r => r = Ok tt) (snd (srun (fun _ => true) s0 xs)) /\
  exists f, In f (all_files s) /\ dbf_size f > 2147483647.
Proof.
  exists late_ops, late_start, (fst (srun (fun _ => true) late_start late_ops)).
  pose proof late_results as H1. pose proof late_size as H2.
  assert (F : Forall (fun x => is_field x \/ small_shape x) late_ops).
  { unfold late_ops. apply Forall_app. split; apply Forall_forall; intros x Hx; apply repeat_spec in Hx as ->; [right|left].
    - split; [repeat split|]; vm_compute; intros H; discriminate H.
    - vm_compute. intros H. discriminate H. }
  generalize dependent late_ops. intros ops H1 H2 F.
  split; [exact F|]. split; [reflexivity|]. split; [reflexivity|]. split.
  - rewrite forallb_forall in H1. apply Forall_forall. intros r Hr. specialize (H1 r Hr). destruct r as [[]| | |]; try discriminate. reflexivity.
  - apply existsb_exists in H2 as (f & If & Hf). exists f. split; [exact If|]. apply Z.gtb_lt in Hf. lia.
Qed.
