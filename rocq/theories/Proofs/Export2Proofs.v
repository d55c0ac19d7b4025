(** Proofs about shape_export.js and area.js. *)
From Verif Require Import Base.Prelude Base.Decimal Model.Osm Model.Geom Model.Shapefile Model.Handler Model.Unicode Model.Js Model.Osmjs Model.Osm2shape Model.Scripts Model.Export
  Spec.UnicodeSpec Spec.JsSpec Spec.Osm2shapeSpec Spec.ScriptsSpec Spec.ExportSpec Proofs.UnicodeProofs Proofs.JsOutProofs Proofs.Osm2shapeProofs Proofs.Osm2shape2Proofs Proofs.ScriptsProofs Proofs.ExportProofs.
Local Open Scope Z_scope.

Lemma lit_utf16 s : lit s = utf16 (ascii_text s).
Proof. destruct (utf16_ascii s) as [U _]. rewrite U. reflexivity. Qed.

(* ---- the regular expression ---- *)
Definition dig (c : Z) : Prop := 48 <= c <= 57.
Definition no_dig (q : chars) : Prop := match q with c :: _ => ~ dig c | [] => True end.
Lemma digits_spec v : text v -> exists d q, v = d ++ q /\ Forall dig d /\ no_dig q /\ digits_off (utf16 v) = (d, utf16 q).
Proof.
  unfold text. induction 1 as [|c v S T IH]; [exists [], []; repeat split; auto; constructor|]. rewrite utf16_cons. destruct (Z.ltb_spec c 65536) as [L|L].
  - rewrite (units_small c L). cbn [app digits_off]. destruct ((48 <=? c) && (c <=? 57)) eqn:E.
    + destruct IH as (d & q & Ev & Fd & Nq & Ed). rewrite Ed. exists (c :: d), q. rewrite Ev. repeat split; auto. constructor; [unfold dig; lia|exact Fd].
    + exists [], (c :: v). repeat split; [constructor|cbn; unfold dig; lia|]. rewrite utf16_cons, (units_small c L). reflexivity.
  - destruct (units_surrogates c S L) as (a & b & E & A & B). rewrite E. cbn [app digits_off]. rewrite (proj2 (Z.leb_gt a 57)) by lia. rewrite andb_false_r.
    exists [], (c :: v). repeat split; [constructor|cbn; unfold dig; lia|]. rewrite utf16_cons, E. reflexivity.
Qed.
Lemma span_unique d : forall d' q q', Forall dig d -> Forall dig d' -> no_dig q -> no_dig q' -> d ++ q = d' ++ q' -> d = d' /\ q = q'.
Proof.
  induction d as [|c d IH]; intros d' q q' F F' N N' E; destruct d' as [|c' d']; cbn [app] in E.
  - auto.
  - subst q. inversion F'; subst. contradiction.
  - subst q'. inversion F; subst. contradiction.
  - inversion F; inversion F'; subst. injection E as -> E. destruct (IH d' q q') as [-> ->]; auto.
Qed.
Lemma digits_utf16 d : Forall dig d -> utf16 d = d.
Proof. induction 1 as [|c d H F IH]; [reflexivity|]. rewrite utf16_cons, (units_small c) by (unfold dig in H; lia). cbn [app]. now rewrite IH. Qed.
Definition units_ : list chars := map ascii_text [""; "kmh"; "km/h"]%string.
Lemma unit_test q : text q -> jeqb (utf16 q) [] || jeqb (utf16 q) (lit "kmh") || jeqb (utf16 q) (lit "km/h") = true <-> In q units_.
Proof.
  intros T. rewrite (lit_utf16 "kmh"), (lit_utf16 "km/h"). change (jeqb (utf16 q) []) with (jeqb (utf16 q) (utf16 (ascii_text ""))).
  rewrite (jeqb_utf16 q (ascii_text "") T (proj2 (utf16_ascii ""))), (jeqb_utf16 q (ascii_text "kmh") T (proj2 (utf16_ascii "kmh"))), (jeqb_utf16 q (ascii_text "km/h") T (proj2 (utf16_ascii "km/h"))).
  rewrite !orb_true_iff, !ceq_spec. unfold units_. cbn [map In]. intuition congruence.
Qed.
Lemma off_digits sp u : sp = [] \/ sp = [32] -> In u units_ -> no_dig (sp ++ u).
Proof.
  intros [->| ->] I; [|cbn; unfold dig; lia]. unfold units_ in I. cbn [map In] in I. destruct I as [<-|[<-|[<-|[]]]]; [exact Logic.I| |]; cbn [app]; unfold no_dig, ascii_text;
    cbn [list_ascii_of_string map]; unfold dig; vm_compute; intros [_ H]; apply H; reflexivity.
Qed.
Lemma speed_ok v : text v -> (forall d, speed (utf16 v) = Some d -> speed_text v d /\ utf16 d = d) /\ (speed (utf16 v) = None -> forall d, ~ speed_text v d).
Proof.
  intros T. destruct (digits_spec v T) as (d & q & Ev & Fd & Nq & Ed). unfold speed. rewrite Ed.
  assert (Tq : text q) by (rewrite Ev in T; apply text_app in T; apply T).
  set (q' := match q with c :: r => if c =? 32 then r else q | [] => [] end).
  assert (Eq : match utf16 q with c :: r => if c =? 32 then r else utf16 q | [] => [] end = utf16 q').
  { unfold q'. destruct q as [|c q]; [reflexivity|]. inversion Tq as [|? ? S Tq']; subst. rewrite utf16_cons. destruct (Z.ltb_spec c 65536) as [L|L].
    - rewrite (units_small c L). cbn [app]. destruct (c =? 32); [reflexivity|]. now rewrite utf16_cons, (units_small c L).
    - destruct (units_surrogates c S L) as (a & b & E & A & B). rewrite E. cbn [app]. rewrite (proj2 (Z.eqb_neq a 32)) by lia. rewrite (proj2 (Z.eqb_neq c 32)) by lia.
      now rewrite utf16_cons, E. }
  rewrite Eq.
  assert (Tq' : text q') by (unfold q'; destruct q as [|c q]; [constructor|]; destruct (c =? 32); [inversion Tq; assumption|exact Tq]).
  assert (Parts : forall sp u, q = sp ++ u -> sp = [] \/ sp = [32] -> In u units_ -> u = q').
  { intros sp u E Sp Iu. unfold q'. destruct Sp as [-> | ->]; cbn [app] in E; subst q; [|reflexivity].
    unfold units_ in Iu. cbn [map In] in Iu. destruct Iu as [<-|[<-|[<-|[]]]]; reflexivity. }
  destruct d as [|x d].
  - split; [discriminate|]. intros _ d' (Nd & Fd' & sp & u & E & Sp & Iu). apply Nd. rewrite Ev in E.
    destruct (span_unique [] d' q (sp ++ u)) as [<- _]; auto. now apply off_digits.
  - destruct (jeqb (utf16 q') [] || jeqb (utf16 q') (lit "kmh") || jeqb (utf16 q') (lit "km/h")) eqn:E.
    + apply (unit_test q' Tq') in E. split; [|discriminate]. intros d' H. inversion H; subst d'. split; [|now apply digits_utf16].
      split; [discriminate|]. split; [exact Fd|]. destruct q as [|c q]; [exists [], []; rewrite Ev, !app_nil_r; repeat split; auto; left; reflexivity|].
      destruct (c =? 32) eqn:C.
      * apply Z.eqb_eq in C. subst c. exists [32], q'. repeat split; auto.
      * exists [], q'. repeat split; auto.
    + split; [discriminate|]. intros _ d' (Nd & Fd' & sp & u & E' & Sp & Iu). rewrite Ev in E'. destruct (span_unique (x :: d) d' q (sp ++ u)) as [_ Eu]; auto; [now apply off_digits|].
      pose proof (Parts sp u Eu Sp Iu) as X. subst u. apply (unit_test q' Tq') in Iu. congruence.
Qed.

(* ---- values ---- *)
Definition okv (v : chars) : Prop := short_text v /\ ~ splits 256 v.
Lemma low_unsplit v : Forall (fun c => c < 65536) v -> ~ splits 256 v.
Proof. intros F (a & c & b & E & H & _). rewrite Forall_forall in F. assert (I : In c v) by (rewrite E; apply in_or_app; right; now left). specialize (F c I). cbn in F. lia. Qed.
Lemma ascii_low s : Forall (fun c => c < 65536) (ascii_text s).
Proof.
  unfold ascii_text. apply Forall_map. apply Forall_forall. intros c _. pose proof (N_ascii_bounded c). lia.
Qed.
Lemma ok_word s : forallb (fun c => (0 <? c) && (c <? 55296)) (ascii_text s) = true -> (List.length (ascii_text s) < 512)%nat -> okv (ascii_text s).
Proof. intros H L. split; [now apply word_short|apply low_unsplit, ascii_low]. Qed.
Lemma number_plain n : - max_exact <= n <= max_exact -> plain (ascii_text (print_Z n)) /\ ~ splits 256 (ascii_text (print_Z n)).
Proof. intros H. destruct (number_cell n H) as ((P & _) & _). split; [exact P|apply low_unsplit, ascii_low]. Qed.
Lemma col_words to_int32 n z v t : (t = CString \/ t = CInteger) -> 0 <= z <= 255 -> okv v -> usable (column_field (col_ n t z)) (words to_int32 v).
Proof.
  intros [-> | ->] Z0 [[P _] S]; unfold usable, words; cbn [column_field col_ f_type f_width column_size]; [|exact I]. split; [exact Z0|]. exists v. auto.
Qed.
Lemma col_number n z m t : (t = CString \/ t = CInteger) -> 0 <= z <= 255 -> - max_exact <= m <= max_exact -> usable (column_field (col_ n t z)) (number m).
Proof.
  intros [-> | ->] Z0 B; unfold usable, number; cbn [column_field col_ f_type f_width column_size]; [|exact I]. split; [exact Z0|]. exists (ascii_text (print_Z m)).
  destruct (number_plain m B) as [P S]. split; [|auto]. destruct (utf16_ascii (print_Z m)) as [U _]. now rewrite U.
Qed.
Lemma number_model n : number_attr n = number n.
Proof. reflexivity. Qed.
Lemma words_model to_int32 v : attr_of to_int32 (option_map utf16 v) = words_or_null to_int32 v.
Proof. destruct v; reflexivity. Qed.
Lemma truthy_text v : match v with Some v => text v | None => True end -> truthy (option_map utf16 v) = has_text v.
Proof.
  destruct v as [v|]; [|reflexivity]. intros T. cbn [option_map]. destruct v as [|c v]; [reflexivity|]. destruct (utf16 (c :: v)) eqn:E; [apply (utf16_nil_iff _ T) in E; discriminate|].
  reflexivity.
Qed.
Lemma is_text_model v s : match v with Some v => text v | None => True end -> is_text (option_map utf16 v) s = match v with Some v => ceq v (ascii_text s) | None => false end.
Proof. destruct v as [v|]; [|reflexivity]. intros T. cbn [option_map is_text]. rewrite lit_utf16. apply jeqb_utf16; [exact T|apply utf16_ascii]. Qed.

Section Objects.
  Variable to_int32 : jstr -> Z.
  Variable proto : jstr -> option jsattr.
  Variable proto2 : jstr -> jstr -> option jsattr.
  Variable kvs : list (chars * chars).
  Hypothesis Fine : tags_fine proto kvs.
  Lemma shorts : Forall (fun kv => short_text (fst kv) /\ short_text (snd kv)) kvs.
  Proof. destruct Fine as [_ F]. revert F. apply Forall_impl. tauto. Qed.
  Lemma get s : forallb (fun c => (0 <? c) && (c <? 55296)) (ascii_text s) = true -> (List.length (ascii_text s) < 512)%nat ->
    match ascii_text s with c :: _ => negb ((48 <=? c) && (c <=? 57)) | [] => true end = true -> tags_get (tags_of kvs) (lit s) = Ok (option_map utf16 (tag_ kvs s)).
  Proof. intros A B C. rewrite lit_utf16. apply tags_get_key; [now apply word_short|now apply word_named|exact shorts]. Qed.
  Lemma value_in k v : first_value k kvs = Some v -> In (k, v) kvs.
  Proof.
    clear Fine. induction kvs as [|[k' v'] l IH]; [discriminate|]. cbn [first_value]. destruct (list_eq_dec Z.eq_dec k' k) as [->|_]; [intros E; inversion E; now left|].
    intros E. right. now apply IH.
  Qed.
  Lemma tag_ok s v : tag_ kvs s = Some v -> okv v.
  Proof. intros E. apply value_in in E. destruct Fine as [_ F]. rewrite Forall_forall in F. destruct (F _ E) as (_ & A & B & _). split; [exact A|exact B]. Qed.
  Lemma tag_text s : match tag_ kvs s with Some v => text v | None => True end.
  Proof. destruct (tag_ kvs s) as [v|] eqn:E; [|exact I]. apply (tag_ok s v) in E. apply E. Qed.
  Lemma col_tag n z s t : (t = CString \/ t = CInteger) -> 0 <= z <= 255 -> usable (column_field (col_ n t z)) (words_or_null to_int32 (tag_ kvs s)).
  Proof. intros T Z0. destruct (tag_ kvs s) as [v|] eqn:E; [|exact I]. apply col_words; auto. now apply (tag_ok s). Qed.

  Definition in_files (fs : list xfile) (x : xrow) : Prop :=
    exists k cols, In (fst x, k, cols) fs /\ Forall (fun p : chars * jsattr => text (fst p)) (snd x) /\
      Forall (fun c => usable (column_field c) (cell_of (snd x) (fst (fst c)))) cols.
  Lemma names_text (cells : list (string * jsattr)) : Forall (fun p : chars * jsattr => text (fst p)) (map (fun p => (ascii_text (fst p), snd p)) cells).
  Proof. apply Forall_map. apply Forall_forall. intros p _. apply utf16_ascii. Qed.

  Lemma landuse_ok a : o_tags a = tags_of kvs -> - max_exact <= o_id a <= max_exact ->
    exists l, landuse_adds to_int32 a = Ok (map jrow l) /\ export_says to_int32 RArea (o_id a) kvs l /\ Forall (in_files export_tables) l.
  Proof.
    intros Tg B. unfold landuse_adds. rewrite Tg, get by (reflexivity || (cbn; lia)). cbn [obind]. rewrite truthy_text by apply tag_text. cbn [export_says].
    pose proof (col_tag "type" 32 "landuse" CString (or_introl eq_refl) ltac:(lia)) as U. rewrite words_model. destruct (tag_ kvs "landuse") as [[|c v]|]; cbn [has_text].
    - exists []. repeat split; constructor.
    - eexists. split; [|split; [reflexivity|]]; [reflexivity|]. constructor; [|constructor]. eexists. eexists. split; [right; right; left; reflexivity|]. split; [apply names_text|].
      constructor; [apply (col_number "id" 10); auto; lia|]. constructor; [exact U|constructor].
    - exists []. repeat split; constructor.
  Qed.
  Lemma oneway_ok v : match v with Some v => text v | None => True end -> oneway_of (option_map utf16 v) = oneway_says v.
  Proof. intros T. unfold oneway_of, oneway_says. rewrite !is_text_model by exact T. destruct v as [v|]; [|reflexivity]. cbn [existsb]. now rewrite orb_false_r, orb_assoc. Qed.
  Lemma maxspeed_ok v : match v with Some v => text v | None => True end -> speed_says to_int32 v (maxspeed_of to_int32 (option_map utf16 v)).
  Proof.
    intros T. unfold maxspeed_of. destruct v as [v|]; cbn [option_map]; [|apply sp_none; discriminate]. destruct (speed_ok v T) as [S N]. destruct (speed (utf16 v)) as [d|].
    - destruct (S d eq_refl) as [X U]. pose proof (sp_some to_int32 (Some v) v d eq_refl X) as Y. unfold words in Y. rewrite U in Y. exact Y.
    - apply sp_none. intros t d E. inversion E; subst. now apply N.
  Qed.
  Lemma way_ok a : o_tags a = tags_of kvs -> - max_exact <= o_id a <= max_exact ->
    exists l, way_adds to_int32 a = Ok (map jrow l) /\ export_says to_int32 RWay (o_id a) kvs l /\ Forall (in_files export_tables) l.
  Proof.
    intros Tg B. unfold way_adds. rewrite Tg, get by (reflexivity || (cbn; lia)). cbn [obind]. rewrite truthy_text by apply tag_text. cbn [export_says].
    pose proof (col_tag "type" 32 "highway" CString (or_introl eq_refl) ltac:(lia)) as U. pose proof (col_tag "name" 32 "name" CString (or_introl eq_refl) ltac:(lia)) as Un.
    rewrite !get by (reflexivity || (cbn; lia)). cbn [obind]. rewrite !words_model, oneway_ok by apply tag_text. destruct (tag_ kvs "highway") as [[|c v]|]; cbn [has_text].
    - exists []. repeat split; constructor.
    - eexists. split; [|split; [exists (maxspeed_of to_int32 (option_map utf16 (tag_ kvs "maxspeed"))); split; [apply maxspeed_ok, tag_text|reflexivity]|]]; [reflexivity|].
      constructor; [|constructor]. eexists. eexists. split; [right; left; reflexivity|]. split; [apply names_text|].
      constructor; [apply (col_number "id" 10); auto; lia|]. constructor; [exact U|]. constructor; [exact Un|].
      constructor; [apply (col_number "oneway" 1); auto; [lia|]; unfold oneway_says, max_exact; destruct (tag_ kvs "oneway"); [destruct (existsb _ _); [lia|]; destruct (ceq _ _); lia|lia]|].
      constructor; [|constructor]. destruct (maxspeed_ok (tag_ kvs "maxspeed") (tag_text _)); exact I.
    - exists []. repeat split; constructor.
  Qed.
  Lemma area_ok a : o_tags a = tags_of kvs -> - max_exact <= o_id a <= max_exact -> forall t,
    exists l, area_adds to_int32 t a = Ok (map jrow l) /\ area_says to_int32 t (o_id a) kvs l /\ Forall (in_files area_tables) l.
  Proof.
    intros Tg B t. destruct t; try (exists []; repeat split; constructor). unfold area_adds. rewrite Tg, !get by (reflexivity || (cbn; lia)). cbn [obind area_says].
    rewrite !truthy_text by apply tag_text. rewrite words_model. eexists. split; [|split; [reflexivity|]].
    - destruct (has_text (tag_ kvs "boundary")); [reflexivity|]. destruct (has_text (tag_ kvs "building")); reflexivity.
    - constructor; [|constructor]. eexists. eexists. split; [left; reflexivity|]. split; [apply names_text|].
      constructor; [apply (col_number "id" 10); auto; lia|]. constructor; [|constructor; [apply (col_tag "name" 32); auto; lia|constructor]].
      apply (col_words to_int32 "type" 32); auto; [lia|]. apply ok_word; destruct (has_text (tag_ kvs "boundary")); try reflexivity; try (vm_compute; lia);
        destruct (has_text (tag_ kvs "building")); try reflexivity; vm_compute; lia.
  Qed.
  (** the table of the types *)
  Lemma poi_ok k v : In (k, v) kvs -> poi_type to_int32 proto proto2 (utf16 k) (utf16 v) = if is_poi (k, v) then Some (words to_int32 v) else None.
  Proof.
    intros I. destruct Fine as [_ F]. rewrite Forall_forall in F. destruct (F _ I) as ((Pk & _) & (Pv & _) & _ & Nk & Nv). cbn [fst snd] in *.
    unfold poi_type, node_table, is_poi, poi_tags. cbn [own existsb fst snd]. 
    assert (Jk : forall s, jeqb (lit s) (utf16 k) = ceq (ascii_text s) k) by (intros s; rewrite lit_utf16; apply jeqb_utf16; [apply utf16_ascii|apply Pk]).
    assert (Jv : forall s, jeqb (lit s) (utf16 v) = ceq (ascii_text s) v) by (intros s; rewrite lit_utf16; apply jeqb_utf16; [apply utf16_ascii|apply Pv]).
    rewrite (Jk "amenity"%string), (Jk "shop"%string).
    assert (Sw : forall a b, ceq a b = ceq b a) by (intros a b; unfold ceq; destruct (list_eq_dec Z.eq_dec a b), (list_eq_dec Z.eq_dec b a); congruence).
    rewrite !(Sw k), !(Sw v). destruct (ceq (ascii_text "amenity") k) eqn:E1.
    - cbn [own]. rewrite (Jv "restaurant"%string), (Jv "pub"%string). apply ceq_spec in E1. subst k. cbn [andb orb]. change (ceq (ascii_text "shop") (ascii_text "amenity")) with false. cbn [andb]. rewrite !orb_false_r.
      destruct (ceq (ascii_text "restaurant") v) eqn:E2; [apply ceq_spec in E2; subst v; cbn [orb]; unfold words; now rewrite <- lit_utf16|]. cbn [orb].
      destruct (ceq (ascii_text "pub") v) eqn:E3; [apply ceq_spec in E3; subst v; unfold words; now rewrite <- lit_utf16|]. apply Nv. now left.
    - cbn [andb orb]. destruct (ceq (ascii_text "shop") k) eqn:E2; cbn [andb]; rewrite ?orb_false_r.
      + cbn [own]. rewrite (Jv "supermarket"%string). apply ceq_spec in E2. subst k. destruct (ceq (ascii_text "supermarket") v) eqn:E3; [apply ceq_spec in E3; subst v; unfold words; now rewrite <- lit_utf16|]. apply Nv. right. now left.
      + now rewrite Nk.
  Qed.
  Lemma key_first k v : In (k, v) kvs -> first_value k kvs = Some v.
  Proof. apply first_of. apply Fine. Qed.
  Lemma loop_step a k v : o_tags a = tags_of kvs -> In (k, v) kvs -> forall r,
    node_adds to_int32 proto proto2 a (utf16 k :: r) =
    if is_poi (k, v) then
      let! l := node_adds to_int32 proto proto2 a r in
      Ok ((lit "./pois", [(lit "id", number_attr (o_id a)); (lit "type", words to_int32 v); (lit "name", words_or_null to_int32 (tag_ kvs "name"))]) :: l)
    else node_adds to_int32 proto proto2 a r.
  Proof.
    intros Tg I r. pose proof (proj2 Fine) as F. rewrite Forall_forall in F. destruct (F _ I) as (Sk & Sv & _ & Nk & _). cbn [fst snd] in *.
    cbn [node_adds]. rewrite Tg. unfold tags_get at 1. destruct (array_index (utf16 k)) eqn:Ai.
    - cbn [obind]. assert (P : is_poi (k, v) = false).
      { unfold is_poi, poi_tags. cbn [existsb fst snd]. assert (N : forall s, array_index (lit s) = false -> ceq k (ascii_text s) = false).
        { intros s H. destruct (ceq k (ascii_text s)) eqn:E; [|reflexivity]. apply ceq_spec in E. rewrite E, <- lit_utf16 in Ai. congruence. }
        now rewrite !N by (vm_compute; reflexivity). }
      rewrite P. assert (Pt : poi_type to_int32 proto proto2 (utf16 k) (text_or_undefined None) = None).
      { unfold poi_type, node_table. cbn [own]. assert (N : forall s, array_index (lit s) = false -> jeqb (lit s) (utf16 k) = false).
        { intros s H. apply jeqb_neq. intros E. rewrite E in H. congruence. }
        rewrite !N by (vm_compute; reflexivity). now rewrite Nk. }
      rewrite Pt. reflexivity.
    - destruct (tag_access kvs shorts) as [_ TA]. fold (tags_of kvs) in TA. rewrite (TA k Sk), (key_first k v I). cbn [option_map obind text_or_undefined].
      rewrite (poi_ok k v I). destruct (is_poi (k, v)); [|reflexivity]. rewrite get by (reflexivity || (cbn; lia)). cbn [obind]. now rewrite words_model.
  Qed.
  Lemma node_ok a : o_tags a = tags_of kvs -> - max_exact <= o_id a <= max_exact ->
    exists l, export_adds to_int32 proto proto2 RNode a = Ok (map jrow l) /\ export_says to_int32 RNode (o_id a) kvs l /\ Forall (in_files export_tables) l.
  Proof.
    intros Tg B. cbn [export_adds]. destruct (tag_access kvs shorts) as [K _]. fold (tags_of kvs) in K. rewrite Tg, K. cbn [obind]. cbn [export_says].
    set (row := fun kv : chars * chars => row_ "./pois" [("id", number (o_id a)); ("type", words to_int32 (snd kv)); ("name", words_or_null to_int32 (tag_ kvs "name"))]%string).
    exists (map row (filter is_poi kvs)). split; [|split; [reflexivity|]].
    - assert (G : forall s, incl s kvs -> node_adds to_int32 proto proto2 a (map (fun kv => utf16 (fst kv)) s) = Ok (map jrow (map row (filter is_poi s)))).
      { induction s as [|[k v] s IH]; intros IN; [reflexivity|]. cbn [map fst]. rewrite (loop_step a k v Tg (IN _ (or_introl eq_refl))), IH by (intros x Hx; apply IN; now right).
        cbn [filter]. destruct (is_poi (k, v)); reflexivity. }
      exact (G kvs (incl_refl _)).
    - apply Forall_map. apply Forall_forall. intros [k v] I. apply filter_In in I. destruct I as [I _]. eexists. eexists. split; [left; reflexivity|]. split; [apply names_text|].
      pose proof (proj2 Fine) as F. rewrite Forall_forall in F. destruct (F _ I) as (_ & Sv & Nv & _).
      constructor; [apply (col_number "id" 12); auto; lia|]. constructor; [apply (col_words to_int32 "type" 32); auto; [lia|split; assumption]|].
      constructor; [apply (col_tag "name" 32); auto; lia|constructor].
  Qed.
End Objects.

Lemma export_pairs : export_files = map file_pair export_tables.
Proof. reflexivity. Qed.
Lemma area_pairs : area_files = map file_pair area_tables.
Proof. reflexivity. Qed.
Lemma cols_ok fs : forallb (fun f : xfile => forallb (fun c => let '(n, _, z) := c : column in forallb (fun x => (0 <? x) && (x <? 128)) n &&
    (1 <=? slen (utf8 n)) && (slen (utf8 n) <=? 11) && (0 <=? column_size z) && (column_size z <=? 255)) (snd f) && (Z.of_nat (List.length (snd f)) <=? 2047) && forallb (fun x => (0 <=? x) && (x <? 128)) (fst (fst f))) fs = true ->
  Forall (fun f => text (fst (fst f)) /\ file_ok (file_parts f)) fs.
Proof.
  intros H. rewrite forallb_forall in H. apply Forall_forall. intros [[n k] cols] I. specialize (H _ I). cbn [fst snd] in *.
  apply andb_true_iff in H. destruct H as [H Tn]. apply andb_true_iff in H. destruct H as [H L]. split.
  - rewrite forallb_forall in Tn. apply Forall_forall. intros c J. specialize (Tn c J). left. lia.
  - unfold file_ok. rewrite parts_columns. split; [|lia]. rewrite forallb_forall in H. apply Forall_forall. intros [[m t] z] J. specialize (H _ J). cbn in H.
    rewrite !andb_true_iff in H. destruct H as ((((H1 & H2) & H3) & H4) & H5). rewrite forallb_forall in H1. unfold column_ok, int32_min. repeat split; try lia.
    + apply Forall_forall. intros c Jc. specialize (H1 c Jc). left. lia.
    + intros Jc. specialize (H1 0 Jc). discriminate.
Qed.
Theorem shape_export_rows to_int32 proto proto2 shape cs : Forall (export_ok proto shape) cs ->
  exists w, shape_export_js to_int32 proto proto2 shape (cs ++ [CFinal]) = Ok w /\ exported shape export_tables (export_says to_int32) cs (x_rows w) /\
    forall n k cols, In (n, k, cols) export_tables -> exists s, own (utf16 n) (x_open w) = Some s /\ ss_type s = kind_shape k /\ ss_fields s = map column_field cols /\
      ss_cur s = None /\ flat_map sf_shapes (ss_done s) = shapes_of shape n (x_rows w).
Proof.
  intros F. unfold shape_export_js. rewrite export_pairs. apply (run_exports shape (export_adds to_int32 proto proto2) export_tables (export_says to_int32) (tags_fine proto)).
  - cbn. repeat constructor; cbn; intuition discriminate.
  - apply cols_ok. vm_compute. reflexivity.
  - intros t a kvs Tg Fi B. destruct t; [exact (node_ok to_int32 proto proto2 kvs Fi a Tg B)|eapply way_ok; eassumption|eapply landuse_ok; eassumption].
  - exact F.
Qed.
Theorem area_rows to_int32 proto shape cs : Forall (export_ok proto shape) cs ->
  exists w, area_js to_int32 shape (cs ++ [CFinal]) = Ok w /\ exported shape area_tables (area_says to_int32) cs (x_rows w) /\
    forall n k cols, In (n, k, cols) area_tables -> exists s, own (utf16 n) (x_open w) = Some s /\ ss_type s = kind_shape k /\ ss_fields s = map column_field cols /\
      ss_cur s = None /\ flat_map sf_shapes (ss_done s) = shapes_of shape n (x_rows w).
Proof.
  intros F. pose (proto2 := fun _ _ : jstr => @None jsattr). unfold area_js. rewrite area_pairs. apply (run_exports shape (area_adds to_int32) area_tables (area_says to_int32) (tags_fine proto)).
  - cbn. repeat constructor; cbn; intuition discriminate.
  - apply cols_ok. vm_compute. reflexivity.
  - intros t a kvs Tg Fi B. eapply area_ok; eassumption.
  - exact F.
Qed.
