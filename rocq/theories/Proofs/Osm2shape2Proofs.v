(** Proofs about the rows written by the shapefile framework. *)
From Verif Require Import Base.Prelude Base.Decimal Model.Osm Model.Geom Model.Shapefile Model.Handler Model.Unicode Model.Js Model.Osmjs Model.Osm2shape
  Spec.UnicodeSpec Spec.JsSpec Spec.Osm2shapeSpec Proofs.UnicodeProofs Proofs.JsOutProofs Proofs.Osm2shapeProofs.
Local Open Scope Z_scope.

(* ---- texts separated by bars ---- *)
Lemma split_first c t : forall p l, split c t = p :: l -> ~ In c p /\ exists b, t ++ [c] = p ++ c :: b.
Proof.
  induction t as [|x t IH]; intros p l E; cbn [split] in E.
  - inversion E; subst. split; [intros []|exists []; reflexivity].
  - destruct (Z.eqb_spec x c) as [->|N].
    + inversion E; subst. split; [intros []|exists (t ++ [c]); reflexivity].
    + destruct (split c t) as [|a l'] eqn:S.
      * exfalso. clear -S. destruct t as [|y t]; cbn [split] in S; [discriminate|]. destruct (y =? c); [discriminate|]. destruct (split c t); discriminate.
      * inversion E; subst. destruct (IH a l eq_refl) as (H1 & b & H2). split.
        -- intros [H|H]; [congruence|contradiction].
        -- exists b. cbn [app]. now rewrite H2.
Qed.
Lemma split_rest c t : forall p l v, split c t = p :: l -> In v l -> ~ In c v /\ exists a b, t ++ [c] = a ++ (c :: v ++ [c]) ++ b.
Proof.
  induction t as [|x t IH]; intros p l v E I; cbn [split] in E.
  - inversion E; subst. destruct I.
  - destruct (Z.eqb_spec x c) as [->|N].
    + inversion E; subst. destruct (split c t) as [|p1 l1] eqn:S; [destruct I|]. destruct I as [->|I].
      * destruct (split_first c t v l1 S) as (H1 & b & H2). split; [exact H1|]. exists [], b. cbn [app]. rewrite H2, <- app_assoc. reflexivity.
      * destruct (IH p1 l1 v eq_refl I) as (H1 & a & b & H2). split; [exact H1|]. exists (c :: a), b. cbn [app] in *. now rewrite H2.
    + destruct (split c t) as [|a l'] eqn:S; [inversion E; subst; destruct I|]. inversion E; subst.
      destruct (IH a l v eq_refl I) as (H1 & a1 & b & H2). split; [exact H1|]. exists (x :: a1), b. cbn [app] in *. now rewrite H2.
Qed.
Lemma split_first_back c t : forall v b, ~ In c v -> t ++ [c] = v ++ c :: b -> exists l, split c t = v :: l.
Proof.
  induction t as [|x t IH]; intros v b N E; cbn [split].
  - destruct v as [|y v]; [exists []; reflexivity|]. cbn in E. inversion E; subst. exfalso. apply N. now left.
  - destruct (Z.eqb_spec x c) as [->|Nx].
    + destruct v as [|y v]; [eauto|]. cbn in E. inversion E; subst. exfalso. apply N. now left.
    + destruct v as [|y v]; cbn in E; inversion E; subst; [congruence|]. destruct (IH v b) as (l & ->); [intros I; apply N; now right|assumption|]. eauto.
Qed.
Lemma split_rest_back c t : forall v a b, ~ In c v -> t ++ [c] = a ++ (c :: v ++ [c]) ++ b -> exists p l, split c t = p :: l /\ In v l.
Proof.
  induction t as [|x t IH]; intros v a b N E.
  - exfalso. apply (f_equal (@List.length Z)) in E. rewrite !app_length in E. cbn [List.length] in E. rewrite app_length in E. cbn [List.length] in E. lia.
  - destruct a as [|y a]; cbn [app] in E.
    + inversion E as [[E1 E2]]. destruct (split_first_back c t v b N) as (l & S); [now rewrite E2, <- app_assoc|]. cbn [split]. rewrite Z.eqb_refl, S.
      exists [], (v :: l). split; [reflexivity|now left].
    + inversion E as [[E1 E2]]. subst y. destruct (IH v a b N E2) as (p & l & S & I). cbn [split]. rewrite S. destruct (x =? c).
      * exists [], (p :: l). split; [reflexivity|now right].
      * exists (x :: p), l. split; [reflexivity|exact I].
Qed.
Lemma split_nonempty c t : split c t <> [].
Proof. destruct t as [|y t]; cbn [split]; [discriminate|]. destruct (y =? c); [discriminate|]. destruct (split c t); discriminate. Qed.
Lemma split_pieces t v : In v (split bar t) <-> piece t v.
Proof.
  destruct (split bar t) as [|p l] eqn:S; [exfalso; now apply (split_nonempty bar t)|]. unfold piece. split.
  - intros [->|I].
    + destruct (split_first bar t v l S) as (H1 & b & H2). split; [exact H1|]. exists [], b. cbn [app]. rewrite H2, <- app_assoc. reflexivity.
    + destruct (split_rest bar t p l v S I) as (H1 & a & b & H2). split; [exact H1|]. exists (bar :: a), b. cbn [app] in *. now rewrite H2.
  - intros (N & a & b & E). destruct a as [|y a]; cbn [app] in E.
    + inversion E as [[E2]]. destruct (split_first_back bar t v b N) as (l' & S'); [now rewrite E2, <- app_assoc|]. rewrite S in S'. inversion S'; subst. now left.
    + inversion E as [[E1 E2]]. destruct (split_rest_back bar t v a b N E2) as (p' & l' & S' & I). rewrite S in S'. inversion S'; subst. now right.
Qed.
Lemma units_surrogates c : scalar c -> 65536 <= c -> exists a b, utf16_units c = [a; b] /\ 55296 <= a /\ 55296 <= b.
Proof.
  intros S H. rewrite <- (u16_units c S). unfold u16_append. rewrite (proj2 (Z.ltb_ge c 65536)) by lia. unfold scalar in S.
  eexists. eexists. split; [reflexivity|]. lia.
Qed.
Lemma split_utf16 t : text t -> split bar (utf16 t) = map utf16 (split bar t).
Proof.
  unfold text. induction 1 as [|c t S T IH]; [reflexivity|]. rewrite utf16_cons. destruct (Z.ltb_spec c 65536) as [L|L].
  - rewrite (units_small c L). cbn [app split]. rewrite IH. destruct (c =? bar); [reflexivity|].
    destruct (split bar t) as [|a l]; cbn [map]; [|rewrite utf16_cons]; rewrite ?(units_small c L); [|reflexivity].
    unfold utf16. cbn [flat_map]. rewrite (units_small c L). reflexivity.
  - destruct (units_surrogates c S L) as (a & b & E & A & B). rewrite E. cbn [app split]. rewrite IH.
    rewrite (proj2 (Z.eqb_neq a bar)) by (unfold bar; lia). rewrite (proj2 (Z.eqb_neq b bar)) by (unfold bar; lia).
    rewrite (proj2 (Z.eqb_neq c bar)) by (unfold bar; lia).
    destruct (split bar t) as [|p l] eqn:Sp; [exfalso; now apply (split_nonempty bar t)|]. cbn [map]. rewrite utf16_cons, E. reflexivity.
Qed.
Lemma split_none u : existsb (Z.eqb bar) u = false -> split bar u = [u].
Proof.
  induction u as [|x u IH]; intros E; [reflexivity|]. cbn [existsb] in E. apply orb_false_iff in E. destruct E as [E1 E2]. cbn [split].
  rewrite Z.eqb_sym, E1, (IH E2). reflexivity.
Qed.
Lemma piece_text t v : text t -> piece t v -> text v.
Proof.
  intros T (_ & a & b & E). assert (T' : text (bar :: t ++ [bar])).
  { constructor; [left; unfold bar; lia|]. apply text_app. split; [exact T|]. constructor; [left; unfold bar; lia|constructor]. }
  rewrite E in T'. apply text_app in T'. destruct T' as [_ T']. apply text_app in T'. destruct T' as [T' _]. inversion T' as [|? ? _ T2]; subst.
  apply text_app in T2. tauto.
Qed.

(* ---- reading tags ---- *)
Lemma utf16_ascii s : utf16 (ascii_text s) = ascii_text s /\ text (ascii_text s).
Proof.
  unfold ascii_text. induction (list_ascii_of_string s) as [|c l [IH1 IH2]]; [split; [reflexivity|constructor]|]. cbn [map].
  assert (B : 0 <= Z.of_N (N_of_ascii c) < 256) by (pose proof (N_ascii_bounded c); lia).
  rewrite utf16_cons, units_small by lia. cbn [app]. split; [now f_equal|]. constructor; [left; lia|exact IH2].
Qed.
Lemma digits_first f : forall n, 0 <= n -> exists c r, print_digits f n = String c r /\ 48 <= Z.of_N (N_of_ascii c) <= 57.
Proof.
  assert (D : forall d, 0 <= d < 10 -> 48 <= Z.of_N (N_of_ascii (digit_char d)) <= 57).
  { intros d H. unfold digit_char. rewrite N_ascii_embedding by lia. lia. }
  induction f as [|f IH]; intros n H; cbn [print_digits].
  - eexists. eexists. split; [reflexivity|]. apply D. apply Z.mod_pos_bound. lia.
  - destruct (Z.ltb_spec n 10).
    + eexists. eexists. split; [reflexivity|]. apply D. lia.
    + destruct (IH (n / 10)) as (c & r & -> & B); [apply Z.div_pos; lia|]. eexists. eexists. split; [reflexivity|exact B].
Qed.
Lemma print_digit n : 0 <= n -> exists c r, ascii_text (print_Z n) = c :: r /\ 48 <= c <= 57.
Proof.
  intros H. unfold print_Z. rewrite (proj2 (Z.ltb_ge n 0)) by exact H. unfold print_nonneg. destruct (digits_first (Z.to_nat (Z.log2 n)) n H) as (c & r & -> & B).
  eexists. eexists. split; [reflexivity|exact B].
Qed.
Lemma named_index t : text t -> named t -> array_index (utf16 t) = false.
Proof.
  intros T N. destruct (array_index (utf16 t)) eqn:E; [exfalso|reflexivity]. unfold array_index in E. apply andb_true_iff in E. destruct E as [E J].
  apply (N (number_of (utf16 t))); [lia|]. apply jeqb_spec in J. change (lit (print_Z (number_of (utf16 t)))) with (ascii_text (print_Z (number_of (utf16 t)))) in J.
  destruct (utf16_ascii (print_Z (number_of (utf16 t)))) as [U T']. symmetry. rewrite <- U in J. revert J. now apply encodings_injective.
Qed.
Lemma tags_get_key k kvs : short_text k -> named k -> Forall (fun kv => short_text (fst kv) /\ short_text (snd kv)) kvs ->
  tags_get (tags_of kvs) (utf16 k) = Ok (option_map utf16 (first_value k kvs)).
Proof.
  intros K N F. unfold tags_get. rewrite named_index; [|apply K|exact N]. destruct (tag_access kvs F) as [_ TA]. exact (TA k K).
Qed.

(* ---- the match functions ---- *)
Lemma among_utf16 v l : text v -> Forall text l -> existsb (jeqb (utf16 v)) (map utf16 l) = true <-> In v l.
Proof.
  intros T F. rewrite existsb_exists. split.
  - intros (u & I & E). apply in_map_iff in I. destruct I as (x & <- & I). rewrite jeqb_utf16 in E; [|exact T|rewrite Forall_forall in F; auto].
    apply ceq_spec in E. now subst.
  - intros I. exists (utf16 v). split; [now apply in_map|apply jeqb_refl].
Qed.
Lemma star_utf16 : star = utf16 [42].
Proof. reflexivity. Qed.
Lemma text_star : text [42].
Proof. constructor; [left; lia|constructor]. Qed.
Lemma utf16_nil_iff t : text t -> utf16 t = [] <-> t = [].
Proof.
  intros T. split; [|intros ->; reflexivity]. intros E. destruct t as [|c t]; [reflexivity|]. rewrite utf16_cons in E.
  inversion T as [|? ? S _]; subst. destruct (Z.ltb_spec c 65536) as [L|L]; [rewrite units_small in E by exact L|destruct (units_surrogates c S L) as (a & b & E2 & _); rewrite E2 in E]; discriminate.
Qed.
Lemma truthy_utf16 v : text v -> truthy (Some (utf16 v)) = true <-> v <> [].
Proof.
  intros T. pose proof (utf16_nil_iff v T) as H. destruct (utf16 v) eqn:E; cbn [truthy].
  - destruct H as [H _]. specialize (H eq_refl). subst. split; [discriminate|congruence].
  - split; [|reflexivity]. intros _ ->. discriminate.
Qed.
Lemma first_value_text k kvs v : Forall (fun kv => short_text (fst kv) /\ short_text (snd kv)) kvs -> first_value k kvs = Some v -> short_text v.
Proof.
  induction 1 as [|[k' v'] kvs [H1 H2] F IH]; cbn [first_value]; [discriminate|]. destruct (list_eq_dec Z.eq_dec k' k); [|exact IH].
  intros E. inversion E; subst. exact H2.
Qed.
Lemma matches_ok k w kvs : short_text k -> named k -> want_ok w -> Forall (fun kv => short_text (fst kv) /\ short_text (snd kv)) kvs ->
  exists b, matches (utf16 k) (if is_star (want_value w) then VNull else want_value w) (tags_of kvs) = Ok b /\ (b = true <-> selected k w kvs).
Proof.
  intros K Nk W F. unfold matches. rewrite (tags_get_key k kvs K Nk F). cbn [obind].
  unfold selected. destruct (first_value k kvs) as [v|] eqn:E; cbn [option_map].
  2:{ exists false. split; [|split; [discriminate|intros (v & H & _); discriminate]].
      destruct (if is_star (want_value w) then VNull else want_value w); cbn [truthy andb]; [reflexivity| |reflexivity].
      destruct (jeqb u star); [reflexivity|]. destruct (existsb (Z.eqb bar) u); reflexivity. }
  pose proof (proj1 (proj1 (first_value_text k kvs v F E))) as Tv. pose proof (truthy_utf16 v Tv) as Y.
  assert (P : forall Q, (exists v0, Some v = Some v0 /\ v0 <> [] /\ Q v0) <-> v <> [] /\ Q v).
  { intros Q. split; [intros (v0 & H & H1); inversion H; subst; tauto|]. intros [H1 H2]. exists v. auto. }
  assert (Any : forall Q : list Z -> Prop, Q v -> (truthy (Some (utf16 v)) = true <-> v <> [] /\ Q v)) by (intros Q q; rewrite Y; tauto).
  destruct w as [|t|l]; cbn [want_value].
  - cbn [is_star]. eexists. split; [reflexivity|]. rewrite P. apply (Any (accepts WNull)). exact I.
  - cbn [want_ok] in W. cbn [is_star]. rewrite star_utf16, (jeqb_utf16 t [42] W text_star). destruct (ceq t [42]) eqn:C.
    + apply ceq_spec in C. subst. eexists. split; [reflexivity|]. rewrite P. apply (Any (accepts (WText [42]))). now left.
    + assert (N : t <> [42]) by (intros ->; rewrite ceq_refl in C; discriminate).
      assert (G : existsb (jeqb (utf16 v)) (split bar (utf16 t)) = true <-> accepts (WText t) v).
      { rewrite split_utf16 by exact W. rewrite among_utf16; [|exact Tv|apply Forall_forall; intros x I; apply split_pieces in I; now apply (piece_text t)].
        rewrite split_pieces. cbn [accepts]. tauto. }
      rewrite (jeqb_utf16 t [42] W text_star), C. destruct (existsb (Z.eqb bar) (utf16 t)) eqn:Eb.
      * eexists. split; [reflexivity|]. rewrite P, andb_true_iff, Y, G. tauto.
      * eexists. split; [reflexivity|]. rewrite P, andb_true_iff, Y, <- G, (split_none _ Eb). cbn [existsb]. rewrite orb_false_r. tauto.
  - cbn [want_ok] in W. destruct (is_star (VList (map utf16 l))) eqn:C; cbn [is_star] in C.
    + assert (L : l = [[42]]).
      { destruct l as [|x [|y l]]; cbn [map] in C; try discriminate. inversion W; subst. rewrite star_utf16, jeqb_utf16 in C by (auto using text_star).
        apply ceq_spec in C. now subst. }
      eexists. split; [reflexivity|]. rewrite P. apply (Any (accepts (WList l))). now left.
    + assert (N : l <> [[42]]) by (intros ->; cbn [map] in C; rewrite star_utf16, jeqb_refl in C; discriminate).
      eexists. split; [reflexivity|]. rewrite P, andb_true_iff, Y, among_utf16 by assumption. cbn [accepts]. tauto.
Qed.

(* ---- opening the files ---- *)
Lemma nonempty_name n : 1 <= slen n -> String.eqb n "" = false.
Proof. destruct n; [unfold slen; cbn; lia|reflexivity]. Qed.
Lemma type_string t : Unicode.c_string (utf8_value (ctype_name t)) =
  match t with CInteger => "integer" | CString => "string" | CBool => "bool" | CDouble => "double" end%string.
Proof. destruct t; reflexivity. Qed.
Lemma add_field_some s f c : ss_cur s = Some c -> Z.of_nat (List.length (ss_fields s)) < 2047 ->
  exists s' c', add_field s f true = (s', Ok tt) /\ ss_type s' = ss_type s /\ ss_fields s' = ss_fields s ++ [f] /\ ss_done s' = ss_done s /\
    ss_cur s' = Some c' /\ sf_shapes c' = sf_shapes c.
Proof.
  intros E L. unfold add_field, max_dbf_fields. rewrite (proj2 (Z.ltb_lt _ 2047)) by exact L. rewrite E. eexists. eexists. repeat split; reflexivity.
Qed.
Lemma column_added cl s c : column_ok cl -> ss_cur s = Some c -> Z.of_nat (List.length (ss_fields s)) < 2047 ->
  exists s' c', add_field_name s (Unicode.c_string (utf8_value (co_name (colj cl)))) (Unicode.c_string (utf8_value (co_type (colj cl)))) (to_i32 (co_size (colj cl))) 0 true = (s', Ok tt) /\
    ss_type s' = ss_type s /\ ss_fields s' = ss_fields s ++ [column_field cl] /\ ss_done s' = ss_done s /\ ss_cur s' = Some c' /\ sf_shapes c' = sf_shapes c.
Proof.
  destruct cl as [[n t] z]. intros (P & B & S) E L. cbn [colj co_name co_type co_size]. rewrite (value_text n P), type_string.
  rewrite to_i32_id by (unfold in_i32, int32_max in *; lia).
  assert (W : forall ft w, w <= 255 -> add_field_type s (utf8 n) ft w 0 true = add_field s (mkField (utf8 n) ft w 0) true).
  { intros ft w Hw. unfold add_field_type, field_new, max_dbf_field_name_length, max_dbf_field_length. rewrite nonempty_name by lia.
    replace (slen (utf8 n) >? 11) with false by lia. cbn [orb]. replace (w >? 255) with false by lia. reflexivity. }
  destruct t; cbn [column_field].
  - change (add_field_name s (utf8 n) "integer" (column_size z) 0 true) with (add_field_type s (utf8 n) FTInteger (column_size z) 0 true). rewrite W by lia. now apply add_field_some.
  - change (add_field_name s (utf8 n) "string" (column_size z) 0 true) with (add_field_type s (utf8 n) FTString (column_size z) 0 true). rewrite W by lia. now apply add_field_some.
  - change (add_field_name s (utf8 n) "bool" (column_size z) 0 true) with (add_field_type s (utf8 n) FTLogical 1 0 true). rewrite W by lia. now apply add_field_some.
  - change (add_field_name s (utf8 n) "double" (column_size z) 0 true) with (add_field_type s (utf8 n) FTDouble (column_size z) 0 true). rewrite W by lia. now apply add_field_some.
Qed.
Lemma add_fields_ok cs : forall s c, Forall column_ok cs -> ss_cur s = Some c -> Z.of_nat (List.length (ss_fields s) + List.length cs) <= 2047 ->
  exists s' c', add_fields (map colj cs) s = Ok s' /\ ss_type s' = ss_type s /\ ss_fields s' = ss_fields s ++ map column_field cs /\
    ss_done s' = ss_done s /\ ss_cur s' = Some c' /\ sf_shapes c' = sf_shapes c.
Proof.
  induction cs as [|x cs IH]; intros s c F E L; cbn [map add_fields].
  - exists s, c. rewrite app_nil_r. auto 7.
  - inversion F; subst. cbn [List.length] in L. destruct (column_added x s c) as (s1 & c1 & A & T1 & F1 & D1 & C1 & S1); [assumption|exact E|lia|]. rewrite A. cbn [obind].
    destruct (IH s1 c1) as (s' & c' & A' & T' & F' & D' & C' & S'); [assumption|exact C1|rewrite F1, app_length; cbn [List.length]; lia|].
    exists s', c'. rewrite A', T', F', D', C', S', T1, F1, D1, S1. repeat split; auto. now rewrite <- app_assoc.
Qed.
Definition fresh (ps : list fpart) (s : sstate) : Prop :=
  ss_type s = kind_shape (file_kind ps) /\ ss_fields s = map column_field (columns ps) /\ ss_done s = [] /\ exists c, ss_cur s = Some c /\ sf_shapes c = [].
Lemma open_file_ok n ps : file_ok ps -> exists s, open_file (filej n ps) = Ok s /\ fresh ps s.
Proof.
  intros [F L]. unfold open_file. cbn [filej sh_gtype sh_columns].
  assert (T : shptype_of (kind_name (file_kind ps)) = Ok (kind_shape (file_kind ps))) by (destruct (file_kind ps); reflexivity). rewrite T. cbn [obind].
  unfold shapefile_new, open, always. cbn [ss_seq ss_type ss_fields ss_reclen ss_done obind].
  match goal with |- context [add_fields _ ?s0] => destruct (add_fields_ok (columns ps) s0 (mkSF 0 [] []) F eq_refl) as (s & c & A & T' & F' & D' & C' & S') end.
  { cbn [ss_fields List.length]. lia. }
  exists s. split; [exact A|]. unfold fresh. rewrite T', F', D'. cbn [ss_type ss_fields ss_done app]. repeat split. exists c. split; [exact C'|exact S'].
Qed.
Lemma open_files_ok fs : Forall (fun p => exists s, open_file (snd p) = Ok s) fs ->
  exists os, open_files fs = Ok os /\ forall k f, own k fs = Some f -> exists s, own k os = Some s /\ open_file f = Ok s.
Proof.
  induction 1 as [|[n f] fs [s E] F IH]; cbn [open_files].
  - exists []. split; [reflexivity|]. intros k f H. discriminate.
  - cbn [snd] in E. destruct IH as (os & -> & IH). rewrite E. cbn [obind]. eexists. split; [reflexivity|]. intros k g. cbn [own].
    destruct (jeqb n k); [|apply IH]. intros H. inversion H; subst. eauto.
Qed.

(* ---- the match functions of all rules ---- *)
Definition made_ready (p : rtype * rulej) : rtype * rulej := (fst p, mkRule (ru_key (snd p)) (ru_value (snd p)) (ru_file (snd p)) (ru_attrs (snd p)) true).
Lemma set_matches_ok inherited w t rs : Forall (fun p => has_file inherited w (snd p) = true) rs ->
  set_matches inherited w t rs = (map (fun p => if rtype_eqb (fst p) t then made_ready p else p) rs, true).
Proof.
  induction 1 as [|[t' r] rs H F IH]; cbn [set_matches map fst snd]; [reflexivity|]. cbn [snd] in H. rewrite IH, H.
  destruct (rtype_eqb t' t); reflexivity.
Qed.
Lemma made_file inherited w p b : has_file inherited w (snd (if (b : bool) then made_ready p else p)) = has_file inherited w (snd p).
Proof. destruct b; reflexivity. Qed.
Lemma set_all_ok inherited w rs : Forall (fun p => has_file inherited w (snd p) = true) rs ->
  set_all inherited w [RNode; RWay; RArea] rs = (map made_ready rs, true).
Proof.
  intros F. assert (K : forall t l, Forall (fun p => has_file inherited w (snd p) = true) l ->
    Forall (fun p => has_file inherited w (snd p) = true) (map (fun p => if rtype_eqb (fst p) t then made_ready p else p) l)).
  { intros t l H. apply Forall_map. revert H. apply Forall_impl. intros p. now rewrite made_file. }
  cbn [set_all]. rewrite set_matches_ok by exact F. rewrite set_matches_ok by now apply K. rewrite set_matches_ok by (apply K; now apply K).
  f_equal. rewrite !map_map. apply map_ext. intros [t r]. destruct t; reflexivity.
Qed.

(* ---- adding shapes ---- *)
Lemma shapes_added s c p : ss_cur s = Some c -> s_type p = ss_type s -> (exists len, length_on_disk p = Ok len) ->
  exists s' c', add_geometry always s (Some p) true = (s', Ok tt) /\ ss_type s' = ss_type s /\ ss_fields s' = ss_fields s /\ ss_cur s' = Some c' /\
    flat_map sf_shapes (all_files s') = flat_map sf_shapes (all_files s) ++ [p].
Proof.
  intros E T (len & L). unfold add_geometry. rewrite E, L. destruct (shptype_eq (s_type p) (ss_type s)) as [_|N]; [|contradiction].
  destruct ((ss_dbfb (count s len) >? max_file_size) || (ss_shpb (count s len) >? max_file_size)).
  - unfold open, always. cbn [ss_seq close count ss_type ss_fields ss_done ss_cur ss_reclen ss_shpb ss_dbfb write]. unfold write, count.
    cbn [ss_seq ss_type ss_fields ss_done ss_cur ss_reclen ss_shpb ss_dbfb]. eexists. eexists. split; [reflexivity|].
    cbn [ss_type ss_fields ss_cur]. repeat split. unfold all_files, close. cbn [ss_done ss_cur]. rewrite E. rewrite !flat_map_app. cbn [flat_map sf_shapes]. now rewrite !app_nil_r.
  - unfold write, count. cbn [ss_cur]. rewrite E. eexists. eexists. split; [reflexivity|]. cbn [ss_type ss_fields ss_cur]. repeat split.
    unfold all_files, close. cbn [ss_done ss_cur]. rewrite E. rewrite !flat_map_app. cbn [flat_map sf_shapes]. rewrite !app_nil_r. now rewrite app_assoc.
Qed.
Lemma length_defined k p : s_type p = kind_shape k -> 0 <= s_vertices p < 1073741824 -> exists len, length_on_disk p = Ok len.
Proof.
  intros T V. unfold length_on_disk, imul. rewrite T. destruct k; cbn [kind_shape]; [eexists; reflexivity| |].
  - rewrite (proj2 (in_i32b_spec _)) by (unfold in_i32, int32_min, int32_max; lia). eexists. reflexivity.
  - rewrite (proj2 (in_i32b_spec _)) by (unfold in_i32, int32_min, int32_max; lia). eexists. reflexivity.
Qed.

(* ---- the attributes ---- *)
Lemma attributes_of to_int32 kvs attrs : Forall (fun kv => short_text (fst kv) /\ short_text (snd kv)) kvs ->
  Forall (fun p => exists a k, p = (utf16 a, utf16 k) /\ text a /\ short_text k /\ named k) attrs -> NoDup (map fst attrs) -> forall obj,
  exists obj', tags2attributes to_int32 (tags_of kvs) attrs obj = Ok obj' /\
    forall x, own x obj' = match own x attrs with
                           | Some u => match tags_get (tags_of kvs) u with Ok v => Some (attr_of to_int32 v) | _ => None end
                           | None => own x obj
                           end.
Proof.
  intros F A. induction A as [|p attrs (a & k & -> & Ta & Sk & Nk) A IH]; intros N obj; cbn [tags2attributes].
  - exists obj. split; [reflexivity|]. reflexivity.
  - cbn [map fst] in N. inversion N as [|? ? N1 N2]; subst. pose proof (tags_get_key k kvs Sk Nk F) as TA. rewrite TA. cbn [obind].
    destruct (IH N2 (set_own (utf16 a) (attr_of to_int32 (option_map utf16 (first_value k kvs))) obj)) as (obj' & E & O). exists obj'. split; [exact E|].
    intros x. rewrite O. cbn [own]. destruct (jeqb (utf16 a) x) eqn:J.
    + apply jeqb_spec in J. subst x. rewrite (proj2 (own_none _ _) N1). rewrite own_set, jeqb_refl, TA. reflexivity.
    + destruct (own x attrs); [reflexivity|]. now rewrite own_set, J.
Qed.
Lemma v8_name n : plain n -> v8_New (utf8 n) = utf16 n.
Proof.
  intros P. unfold v8_New. rewrite (c_string_plain n P). rewrite (proj2 (decode8 (utf8 n) n)) by (split; [apply P|reflexivity]). now rewrite u16_all by apply P.
Qed.
Lemma column_name c : f_name (column_field c) = utf8 (fst (fst c)).
Proof. destruct c as [[n []] z]; reflexivity. Qed.
Lemma id_lit : lit "id" = utf16 id_chars.
Proof. reflexivity. Qed.
Lemma id_text : text id_chars.
Proof. constructor; [left; lia|constructor; [left; lia|constructor]]. Qed.

Section Run.
  Variable inherited : jstr -> bool.
  Variable to_int32 : jstr -> Z.
  Variable shape : this -> outcome shp.
  Variable ds : list decl.
  Hypothesis Dok : Forall decl_ok ds.
  Hypothesis Fok : forall n ps, In (File n ps) ds -> file_ok ps.
  Hypothesis Says : config_says ds.
  Hypothesis Full : complete ds.

  Definition rinv (w : world) : Prop :=
    Forall2 (rule_rel true) (filter is_rule ds) (w_rules w) /\
    forall n ps, text n -> declared ds n = Some ps -> exists s c, own (utf16 n) (w_open w) = Some s /\
      ss_type s = kind_shape (file_kind ps) /\ ss_fields s = map column_field (columns ps) /\ ss_cur s = Some c /\
      flat_map sf_shapes (all_files s) = shapes_of shape n (w_rows w).
  Lemma rule_file t k w ps : In (Rule t k w ps) ds -> exists n f, output ps = Some n /\ n <> [] /\ text n /\ declared ds n = Some f /\ file_ok f.
  Proof.
    intros I. destruct (Full t k w ps I) as (n & O & N). exists n. apply in_split in I. destruct I as (a & b & E).
    pose proof (output_in ps n O) as J. assert (T : text n).
    { rewrite Forall_forall in Dok. specialize (Dok (Rule t k w ps)). rewrite E in Dok. destruct Dok as (_ & _ & P); [apply in_or_app; right; now left|].
      rewrite Forall_forall in P. exact (P _ J). }
    apply in_split in J. destruct J as (x & y & Ep). specialize (Says a t k w ps b E x (DOutput n) y Ep). cbn in Says.
    assert (D : declared ds n <> None) by (rewrite E; now apply declared_app). destruct (declared ds n) as [f|] eqn:Df; [|congruence].
    exists f. repeat split; auto. unfold declared in Df. apply final_in in Df. destruct Df as (d & I & Ed). destruct d as [m ps'|]; [|discriminate].
    destruct (ceq m n); [|discriminate]. inversion Ed; subst. eapply Fok. eassumption.
    unfold declared in Df. apply final_in in Df. destruct Df as (d & I & Ed). destruct d as [m ps'|]; [|discriminate].
    destruct (ceq m n); [|discriminate]. inversion Ed; subst. eapply Fok. eassumption.
  Qed.

  Lemma source_short k ps x u : Forall rpart_ok ps -> source ps x = Some u -> k = u -> short_text k /\ named k.
  Proof.
    intros F E ->. unfold source in E. apply final_in in E. destruct E as (p & I & E). rewrite Forall_forall in F. specialize (F p I).
    destruct p as [n|a k]; [discriminate|]. destruct (ceq a x); [|discriminate]. inversion E; subst. exact (proj2 F).
  Qed.
  Lemma cells kvs id k w ps r obj c : Forall (fun kv => short_text (fst kv) /\ short_text (snd kv)) kvs -> Forall rpart_ok ps ->
    rule_fields k w ps true r -> column_ok c ->
    (forall x, own x obj = match own x (ru_attrs r) with
                           | Some u => match tags_get (tags_of kvs) u with Ok v => Some (attr_of to_int32 v) | _ => None end
                           | None => own x [(lit "id", id_attr id)]
                           end) ->
    value_of (fun n => own (v8_New n) obj) (column_field c) = cell to_int32 id kvs ps (fst (fst c)).
  Proof.
    intros F P (_ & _ & _ & _ & _ & A & _) C O. unfold value_of. rewrite column_name. destruct c as [[n t] z]. cbn [fst]. destruct C as (Pn & _).
    rewrite (v8_name n Pn), O, (A n (proj1 Pn)). unfold cell. destruct (source ps n) as [u|] eqn:E; cbn [option_map].
    - destruct (source_short u ps n u P E eq_refl) as [Su Nu]. rewrite (tags_get_key u kvs Su Nu F). destruct (first_value u kvs); reflexivity.
    - cbn [own]. rewrite id_lit, (jeqb_utf16 id_chars n id_text (proj1 Pn)). unfold ceq.
      destruct (list_eq_dec Z.eq_dec id_chars n), (list_eq_dec Z.eq_dec n id_chars); try congruence; reflexivity.
  Qed.
  Lemma add_row_ok a t o kvs k w ps r wd : In (Rule t k w ps) ds -> rule_fields k w ps true r -> rinv wd ->
    o_tags a = tags_of kvs -> Forall (fun kv => short_text (fst kv) /\ short_text (snd kv)) kvs ->
    (forall n f c, output ps = Some n -> declared ds n = Some f -> fits shape (file_kind f) o ->
        In c (columns f) -> usable (column_field c) (cell to_int32 (o_id a) kvs ps (fst (fst c)))) ->
    (shape o = Throw EIllegalGeometry \/ exists p, shape o = Ok p /\ 0 <= s_vertices p < 1073741824) ->
    exists wd' n f, add_row to_int32 shape a o r wd = JOk wd' /\ rinv wd' /\ output ps = Some n /\ declared ds n = Some f /\
      ((~ fits shape (file_kind f) o /\ w_rows wd' = w_rows wd) \/
       exists row, w_rows wd' = w_rows wd ++ [row] /\ row_says to_int32 shape ds (o_id a) kvs o n ps row).
  Proof.
    intros I R (RI & FI) Tg F U G. destruct (rule_file t k w ps I) as (n & f & O & _ & T & D & Fo).
    pose proof R as (_ & _ & Rf & _ & Rn & _ & Ra). unfold add_row. rewrite Tg.
    destruct (attributes_of to_int32 kvs (ru_attrs r) F Ra Rn [(lit "id", id_attr (o_id a))]) as (obj & Eo & Oo). rewrite Eo, Rf, O. cbn [option_map].
    destruct (FI n f T D) as (s & c & Os & Ts & Fs & Cs & Ss). rewrite Os.
    assert (Rok : Forall rpart_ok ps) by (rewrite Forall_forall in Dok; destruct (Dok _ I) as (_ & _ & H); exact H).
    assert (Same : forall rows', rinv (mkW (w_files wd) (w_rules wd) (set_own (utf16 n) s (w_open wd)) rows') <->
                   rinv (mkW (w_files wd) (w_rules wd) (w_open wd) rows')).
    { intros rows'. unfold rinv. cbn [w_rules w_open w_rows]. apply and_iff_compat_l. split; intros H m q Tm Dm; specialize (H m q Tm Dm);
        rewrite own_set, (jeqb_utf16 n m T Tm) in *; destruct (ceq n m) eqn:E; auto; apply ceq_spec in E; subst m; now rewrite Os in *. }
    assert (Back : rinv (mkW (w_files wd) (w_rules wd) (w_open wd) (w_rows wd))) by (split; assumption).
    destruct G as [G|(p & G & V)].
    { rewrite G. cbn. rewrite app_nil_r. eexists. exists n, f. split; [reflexivity|]. split; [apply Same; exact Back|]. repeat split; auto. left. split; [|reflexivity].
      intros (q & H & _). congruence. }
    rewrite G. destruct (shptype_eq (s_type p) (ss_type s)) as [Et|Nt].
    2:{ unfold add_geometry. rewrite Cs. destruct (shptype_eq (s_type p) (ss_type s)) as [Et|_]; [contradiction|]. cbn. rewrite app_nil_r.
        eexists. exists n, f. split; [reflexivity|]. split; [apply Same; exact Back|]. repeat split; auto. left. split; [|reflexivity].
        intros (q & H & Hq). rewrite G in H. inversion H; subst. congruence. }
    assert (Fit : fits shape (file_kind f) o) by (exists p; split; [exact G|congruence]).
    destruct (shapes_added s c p Cs Et (length_defined (file_kind f) p ltac:(congruence) V)) as (s' & c' & Ag & Ts' & Fs' & Cs' & Ss'). rewrite Ag.
    assert (Val : forall x, In x (columns f) -> value_of (fun n0 => own (v8_New n0) obj) (column_field x) = cell to_int32 (o_id a) kvs ps (fst (fst x))).
    { intros x Ix. apply (cells kvs (o_id a) k w ps r obj x F Rok R); [|exact Oo]. destruct Fo as [Fo _]. rewrite Forall_forall in Fo. now apply Fo. }
    destruct (add_ok (ss_fields s) (fun n0 => own (v8_New n0) obj)) as (l & Ea & La & Na).
    { rewrite Fs. apply Forall_map. apply Forall_forall. intros x Ix. rewrite (Val x Ix). now apply (U n f x). }
    rewrite Ea. eexists. exists n, f. split; [reflexivity|]. split; [|split; [reflexivity|split; [exact D|right; eexists; split; [reflexivity|]]]].
    - split; [exact RI|]. cbn [w_open w_rows]. intros m q Tm Dm. rewrite own_set, (jeqb_utf16 n m T Tm). destruct (ceq n m) eqn:E.
      + apply ceq_spec in E. subst m. rewrite D in Dm. inversion Dm; subst q. exists s', c'. split; [reflexivity|]. rewrite Ts', Fs'. repeat split; auto.
        rewrite Ss', Ss. unfold shapes_of. rewrite flat_map_app. cbn [flat_map or_file or_object]. rewrite G, app_nil_r.
        destruct (list_eq_dec Z.eq_dec (utf16 n) (utf16 n)); [reflexivity|congruence].
      + destruct (FI m q Tm Dm) as (sm & cm & Om & H1 & H2 & H3 & H4). exists sm, cm. repeat split; auto. rewrite H4. unfold shapes_of. rewrite flat_map_app.
        cbn [flat_map or_file]. assert (Nm : utf16 n <> utf16 m) by (intros X; rewrite <- (jeqb_utf16 n m T Tm) in E; apply jeqb_spec in X; congruence).
        destruct (list_eq_dec Z.eq_dec (utf16 n) (utf16 m)); [contradiction|]. now rewrite !app_nil_r.
    - unfold row_says. cbn [or_file or_object or_values]. repeat split. exists f. split; [exact D|]. split; [exact Fit|]. rewrite La, Fs, map_length. split; [reflexivity|].
      intros i x Ex. destruct (Na i (column_field x)) as (d & Ed & W); [rewrite Fs, nth_error_map, Ex; reflexivity|]. exists d. split; [exact Ed|].
      rewrite (Val x (nth_error_In _ _ Ex)) in W. exact W.
  Qed.
  Lemma rtype_eqb_spec x y : rtype_eqb x y = true <-> x = y.
  Proof. destruct x, y; split; intros H; try discriminate; reflexivity. Qed.
  Lemma check_rules_ok a t o kvs : o_tags a = tags_of kvs -> Forall (fun kv => short_text (fst kv) /\ short_text (snd kv)) kvs ->
    (forall k w ps n f c, In (Rule t k w ps) ds -> selected k w kvs -> output ps = Some n -> declared ds n = Some f -> fits shape (file_kind f) o ->
        In c (columns f) -> usable (column_field c) (cell to_int32 (o_id a) kvs ps (fst (fst c)))) ->
    (shape o = Throw EIllegalGeometry \/ exists p, shape o = Ok p /\ 0 <= s_vertices p < 1073741824) ->
    forall l rs wd, Forall2 (rule_rel true) (filter is_rule l) rs -> incl l ds -> rinv wd ->
    exists wd' r1, check_rules to_int32 shape a o (map snd (filter (fun p => rtype_eqb (fst p) t) rs)) wd = JOk wd' /\ rinv wd' /\
      w_rows wd' = w_rows wd ++ r1 /\ rows_for to_int32 shape ds t o (o_id a) kvs l r1.
  Proof.
    intros Tg F U G. induction l as [|d l IH]; intros rs wd FR IN R.
    - cbn [filter] in FR. inversion FR; subst. exists wd, []. cbn. rewrite app_nil_r. repeat split; try apply R. constructor.
    - assert (IN' : incl l ds) by (intros x Hx; apply IN; now right). assert (Id : In d ds) by (apply IN; now left).
      destruct d as [n ps|t' k w ps]; cbn [filter is_rule] in FR.
      + destruct (IH rs wd FR IN' R) as (wd' & r1 & E & R' & W & Rf). exists wd', r1. repeat split; try apply R'; auto. now constructor.
      + inversion FR as [|? p ? rs' Hh FR']; subst. destruct p as [t2 r]. cbn [rule_rel fst snd] in Hh. destruct Hh as [<- Hr]. cbn [filter fst].
        destruct (rtype_eqb t2 t) eqn:Et.
        2:{ destruct (IH rs' wd FR' IN' R) as (wd' & r1 & E & R' & W & Rf). exists wd', r1. repeat split; try apply R'; auto. apply rf_not; [|exact Rf]. left.
            intros X. apply rtype_eqb_spec in X. congruence. }
        apply rtype_eqb_spec in Et. subst t2. cbn [map snd check_rules]. pose proof Hr as (Hk & Hv & _ & Hq & _). rewrite Hq, Hk, Hv, Tg.
        assert (Dd : decl_ok (Rule t k w ps)) by (rewrite Forall_forall in Dok; now apply Dok). destruct Dd as ((Kk & Kn) & Kw & _).
        destruct (matches_ok k w kvs Kk Kn Kw F) as (b & Eb & Sb). rewrite Eb. destruct b.
        * destruct Sb as [Sb _]. specialize (Sb eq_refl).
          destruct (add_row_ok a t o kvs k w ps r wd Id Hr R Tg F) as (w1 & n & f & Ea & R1 & On & Df & Cs); [intros n f c H1 H2 H3 H4; now apply (U k w ps n f c)|exact G|].
          rewrite Ea. destruct (IH rs' w1 FR' IN' R1) as (wd' & r1 & E & R' & W & Rf). destruct Cs as [[Nf Ew]|(row & Ew & Rs)].
          -- exists wd', r1. repeat split; try apply R'; auto; [rewrite W, Ew; reflexivity|]. now apply (rf_unfit to_int32 shape ds t o (o_id a) kvs k w ps n f).
          -- exists wd', (row :: r1). repeat split; try apply R'; auto; [rewrite W, Ew, <- app_assoc; reflexivity|].
             now apply (rf_row to_int32 shape ds t o (o_id a) kvs k w ps n row).
        * destruct (IH rs' wd FR' IN' R) as (wd' & r1 & E & R' & W & Rf). exists wd', r1. repeat split; try apply R'; auto. apply rf_not; [|exact Rf]. right.
          intros X. apply Sb in X. discriminate.
  Qed.
  Lemma call_ok c wd : callback_ok to_int32 shape ds c -> rinv wd ->
    exists wd' r1, o2s_call inherited to_int32 shape c wd = JOk wd' /\ rinv wd' /\ w_rows wd' = w_rows wd ++ r1 /\
      ((subject c = None /\ r1 = []) \/
       exists t o a kvs, subject c = Some (t, o, a) /\ o_tags a = tags_of kvs /\ rows_for to_int32 shape ds t o (o_id a) kvs ds r1).
  Proof.
    intros C R. assert (Main : forall t o a, subject c = Some (t, o, a) -> attrs_of o = Some a -> o2s_call inherited to_int32 shape c wd = check to_int32 shape t o wd ->
      callback_ok to_int32 shape ds c -> object_ok to_int32 shape ds t o a ->
      exists wd' r1, o2s_call inherited to_int32 shape c wd = JOk wd' /\ rinv wd' /\ w_rows wd' = w_rows wd ++ r1 /\
      ((subject c = None /\ r1 = []) \/
       exists t o a kvs, subject c = Some (t, o, a) /\ o_tags a = tags_of kvs /\ rows_for to_int32 shape ds t o (o_id a) kvs ds r1)).
    { intros t o a S A E _ ((kvs & Tg & F & U) & G). rewrite E. unfold check. rewrite A. unfold rules_of.
      destruct (check_rules_ok a t o kvs Tg F U G ds (w_rules wd) wd (proj1 R) (incl_refl _) R) as (wd' & r1 & E1 & R1 & W & Rf).
      exists wd', r1. rewrite E1. repeat split; try apply R1; auto. right. exists t, o, a, kvs. auto. }
    assert (Other : subject c = None -> o2s_call inherited to_int32 shape c wd = JOk wd ->
      exists wd' r1, o2s_call inherited to_int32 shape c wd = JOk wd' /\ rinv wd' /\ w_rows wd' = w_rows wd ++ r1 /\
      ((subject c = None /\ r1 = []) \/
       exists t o a kvs, subject c = Some (t, o, a) /\ o_tags a = tags_of kvs /\ rows_for to_int32 shape ds t o (o_id a) kvs ds r1)).
    { intros S E. exists wd, []. rewrite app_nil_r. repeat split; try apply R; auto. }
    destruct c; try contradiction; try (now apply Other); cbn [callback_ok] in C.
    - destruct o as [x|x|x]; try (now apply Other).
      + eapply Main; try reflexivity; auto.
      + eapply Main; try reflexivity; auto.
    - eapply Main; try reflexivity; auto.
  Qed.
  Lemma run_ok cs : forall wd, Forall (callback_ok to_int32 shape ds) cs -> rinv wd ->
    exists wd' rs, o2s_run inherited to_int32 shape cs wd = Some wd' /\ rinv wd' /\ w_rows wd' = w_rows wd ++ rs /\ rows_all to_int32 shape ds cs rs.
  Proof.
    induction cs as [|c cs IH]; intros wd F R.
    - exists wd, []. cbn. rewrite app_nil_r. repeat split; try apply R. constructor.
    - inversion F; subst. destruct (call_ok c wd H1 R) as (w1 & r1 & E1 & R1 & W1 & C1). destruct (IH w1 H2 R1) as (w2 & rs & E2 & R2 & W2 & A2).
      exists w2, (r1 ++ rs). cbn [o2s_run]. rewrite E1. repeat split; try apply R2; [exact E2|rewrite W2, W1, <- app_assoc; reflexivity|].
      destruct C1 as [[S ->]|(t & o & a & kvs & S & Tg & Rf)]; [now apply ra_other|]. now apply (ra_object to_int32 shape ds c t o a kvs).
  Qed.
  Lemma run_app c1 : forall c2 wd, o2s_run inherited to_int32 shape (c1 ++ c2) wd =
    match o2s_run inherited to_int32 shape c1 wd with Some w => o2s_run inherited to_int32 shape c2 w | None => None end.
  Proof.
    induction c1 as [|c c1 IH]; intros c2 wd; [reflexivity|]. cbn [app o2s_run]. destruct (o2s_call inherited to_int32 shape c wd); auto.
  Qed.
  Lemma init_ok w0 : inv ds w0 -> exists wd, o2s_init inherited w0 = JOk wd /\ rinv wd /\ w_rows wd = [].
  Proof.
    intros (FI & RI & _ & W0 & FA). unfold o2s_init. destruct (open_files_ok (w_files w0)) as (os & Eo & Oo).
    { revert FA. apply Forall_impl. intros p (n & ps & _ & -> & I). cbn [snd]. destruct (open_file_ok n ps (Fok n ps I)) as (s & E & _). eauto. }
    rewrite Eo. rewrite set_all_ok.
    - eexists. split; [reflexivity|]. cbn [w_rows]. split; [|exact W0]. split; cbn [w_rules w_open w_rows].
      + clear -RI. induction RI as [|d p l rs H RI IH]; cbn [map]; constructor; [|exact IH]. destruct d as [|t k w ps]; [contradiction|].
        destruct H as (H1 & H2 & H3 & H4 & H5 & H6 & H7 & H8). split; [exact H1|]. unfold rule_fields, made_ready. cbn. repeat split; auto.
      + intros n ps T D. destruct (Oo (utf16 n) (filej n ps)) as (s & Os & Es); [rewrite (FI n T), D; reflexivity|].
        assert (I : In (File n ps) ds).
        { unfold declared in D. apply final_in in D. destruct D as (d & I & Ed). destruct d as [m ps'|]; [|discriminate]. destruct (ceq m n) eqn:E; [|discriminate].
          apply ceq_spec in E. inversion Ed; subst. exact I. }
        destruct (open_file_ok n ps (Fok n ps I)) as (s2 & E2 & Fr). rewrite Es in E2. inversion E2; subst s2. destruct Fr as (F1 & F2 & F3 & c & F4 & F5).
        exists s, c. repeat split; auto. rewrite W0. unfold all_files, close. rewrite F4. cbn [ss_done]. rewrite F3. cbn. now rewrite F5.
    - assert (G : forall l rs, incl l ds -> Forall2 (rule_rel false) (filter is_rule l) rs -> Forall (fun p => has_file inherited w0 (snd p) = true) rs).
      { induction l as [|d l IH]; intros rs IN FR; cbn [filter] in FR; [inversion FR; constructor|].
        assert (IN' : incl l ds) by (intros x Hx; apply IN; now right). destruct d as [n ps|t k w ps]; cbn [is_rule] in FR; [now apply IH|].
        inversion FR as [|? p ? rs' Hh FR']; subst. cbn [rule_rel] in Hh. destruct Hh as [_ Hr]. constructor; [|now apply IH]. destruct (rule_file t k w ps (IN _ (or_introl eq_refl))) as (n & f & O & Nn & T & D & _).
        destruct Hr as (_ & _ & Rf & _). unfold has_file. rewrite Rf, O. cbn [option_map].
        assert (Nu : utf16 n <> []) by (intros X; apply Nn; now apply utf16_nil_iff). destruct (utf16 n) eqn:Eu; [congruence|]. rewrite <- Eu. unfold has_name. rewrite (FI n T), D. reflexivity. }
      exact (G ds (w_rules w0) (incl_refl _) RI).
  Qed.
  Lemma end_shapes s : flat_map sf_shapes (ss_done (close s)) = flat_map sf_shapes (all_files s).
  Proof. reflexivity. Qed.
  Lemma own_map k (os : list (jstr * sstate)) : own k (map (fun p => (fst p, close (snd p))) os) = option_map close (own k os).
  Proof. induction os as [|[n s] os IH]; cbn; [reflexivity|]. destruct (jeqb n k); [reflexivity|exact IH]. Qed.
  Theorem osm2shape_rows cs : proper inherited ds -> Forall (callback_ok to_int32 shape ds) cs ->
    exists w, osm2shape inherited to_int32 shape (script ds) (CInit :: cs ++ [CFinal]) = Some (Some w) /\ rows_all to_int32 shape ds cs (w_rows w) /\
      forall n ps, text n -> declared ds n = Some ps -> exists s, own (utf16 n) (w_open w) = Some s /\
        ss_type s = kind_shape (file_kind ps) /\ ss_fields s = map column_field (columns ps) /\ ss_cur s = None /\
        flat_map sf_shapes (ss_done s) = shapes_of shape n (w_rows w).
  Proof.
    intros P C. destruct (configure_ok inherited ds Dok P Says) as (w0 & E0 & I0). destruct (init_ok w0 I0) as (w1 & E1 & R1 & W1).
    destruct (run_ok cs w1 C R1) as (w2 & rs & E2 & R2 & W2 & A2). unfold osm2shape. rewrite E0. cbn [o2s_run o2s_call]. rewrite E1, run_app, E2. cbn [o2s_run o2s_call o2s_end].
    unfold o2s_end. eexists. split; [reflexivity|]. cbn [w_rows w_open]. rewrite W1 in W2. cbn [app] in W2. rewrite W2. split; [exact A2|].
    intros n ps T D. destruct (proj2 R2 n ps T D) as (s & c & Os & H1 & H2 & H3 & H4). exists (close s). rewrite own_map, Os. split; [reflexivity|].
    rewrite end_shapes, H4, W2. unfold close. rewrite H3. cbn [ss_type ss_fields ss_cur]. auto.
  Qed.
End Run.
