From Verif Require Import Base.Prelude Base.Decimal Model.Osm Model.Time Model.Attr Spec.TimeSpec Spec.AttrSpec Proofs.TimeProofs.

Lemma blank_space c : blank c <-> is_space c = true.
Proof.
  unfold blank, is_space, nat_of_ascii. generalize (N_of_ascii c). intros n. cbn [In]. lia.
Qed.
Lemma skip_space_app sp s : all_blank sp -> match s with String c _ => is_space c = false | EmptyString => True end -> skip_space (sp ++ s) = s.
Proof.
  induction sp as [|c sp IH]; cbn [all_blank String.append skip_space]; intros B H.
  - destruct s as [|c r]; cbn; [reflexivity|]. rewrite H. reflexivity.
  - destruct B as [B1 B2]. apply blank_space in B1. rewrite B1. apply IH; assumption.
Qed.
Lemma skip_space_inv s : exists sp, s = (sp ++ skip_space s)%string /\ all_blank sp.
Proof.
  induction s as [|c s (sp & E & B)]; cbn [skip_space].
  - exists ""%string. split; [reflexivity|exact I].
  - destruct (is_space c) eqn:Ec.
    + exists (String c sp). cbn [String.append all_blank]. split; [congruence|]. split; [|exact B]. apply blank_space. exact Ec.
    + exists ""%string. split; [reflexivity|exact I].
Qed.
Lemma no_digit_first_starts s : no_digit_first s -> starts_digit s = false.
Proof. destruct s as [|c s]; cbn; [reflexivity|]. rewrite digit_eq. destruct (is_digit c); [discriminate|reflexivity]. Qed.
Lemma number_head ds n : number ds n -> exists c r, ds = String c r /\ is_digit c = true.
Proof.
  intros [NE D]. destruct ds as [|c r]; [congruence|]. exists c, r. split; [reflexivity|].
  cbn in D. rewrite digit_eq in D. destruct (is_digit c); [reflexivity|discriminate].
Qed.
Lemma digit_not_sign c : is_digit c = true -> Ascii.eqb c "-" = false /\ Ascii.eqb c "+" = false.
Proof.
  unfold is_digit. intros H. split; apply Ascii.eqb_neq; intros ->; discriminate H.
Qed.
Lemma atoll_denotes s n : denotes s n -> in_i64 n -> atoll s = Ok n.
Proof.
  intros D R. apply in_i64b_spec in R. unfold atoll. destruct D as [sp ds rest n B N F | sp ds rest n B N F | sp ds rest n B N F].
  - apply no_digit_first_starts in F. destruct (number_head ds n N) as (c & r & -> & Dc). destruct N as [_ N].
    rewrite skip_space_app; [|exact B|cbn; apply digit_not_space; exact Dc].
    cbn [String.append]. destruct (digit_not_sign c Dc) as [-> ->].
    change (String c (r ++ rest)) with (String c r ++ rest)%string. rewrite (digits_from_scan _ 0 n rest N F). cbn [fst]. rewrite R. reflexivity.
  - apply no_digit_first_starts in F. destruct N as [_ N].
    rewrite skip_space_app; [|exact B|reflexivity].
    cbn [String.append]. rewrite (digits_from_scan _ 0 n rest N F). cbn [fst Ascii.eqb Bool.eqb]. rewrite R. reflexivity.
  - apply no_digit_first_starts in F. destruct N as [_ N].
    rewrite skip_space_app; [|exact B|reflexivity].
    cbn [String.append]. rewrite (digits_from_scan _ 0 n rest N F). cbn [fst Ascii.eqb Bool.eqb]. rewrite R. reflexivity.
Qed.

Theorem id_text s n a : denotes s n -> in_i64 n ->
  exists a', set_attribute "id" s a = Ok (a', None) /\ o_id a' = n.
Proof. intros D R. unfold set_attribute, string_to_osm_object_id_t. cbn [String.eqb Ascii.eqb Bool.eqb]. rewrite (atoll_denotes s n D R). cbn. eauto. Qed.
Lemma u32_i64 n : in_u32 n -> in_i64 n.
Proof. unfold in_u32, in_i64, int64_min, int64_max; lia. Qed.
Lemma i32_i64 n : in_i32 n -> in_i64 n.
Proof. unfold in_i32, in_i64, int64_min, int64_max, int32_min, int32_max; lia. Qed.
Theorem version_text s n a : denotes s n -> in_u32 n ->
  exists a', set_attribute "version" s a = Ok (a', None) /\ o_version a' = n.
Proof. intros D R. unfold set_attribute, string_to_osm_version_t. cbn [String.eqb Ascii.eqb Bool.eqb]. rewrite (atoll_denotes s n D (u32_i64 n R)). cbn [obind]. rewrite to_u32_id by exact R. eauto. Qed.
Theorem changeset_text s n a : denotes s n -> in_i32 n ->
  exists a', set_attribute "changeset" s a = Ok (a', None) /\ o_changeset a' = n.
Proof. intros D R. unfold set_attribute, string_to_osm_changeset_id_t. cbn [String.eqb Ascii.eqb Bool.eqb]. rewrite (atoll_denotes s n D (i32_i64 n R)). cbn [obind]. rewrite to_i32_id by exact R. eauto. Qed.
Theorem uid_text s n a : denotes s n -> in_i32 n ->
  exists a', set_attribute "uid" s a = Ok (a', None) /\ o_uid a' = n.
Proof. intros D R. unfold set_attribute, string_to_osm_user_id_t. cbn [String.eqb Ascii.eqb Bool.eqb]. rewrite (atoll_denotes s n D (i32_i64 n R)). cbn [obind]. rewrite to_i32_id by exact R. eauto. Qed.

Theorem timestamp_text_ok s t a : iso_text t s ->
  exists a', set_attribute "timestamp" s a = Ok (a', None) /\ o_timestamp a' = t.
Proof. intros D. unfold set_attribute, timestamp_text. cbn [String.eqb Ascii.eqb Bool.eqb]. rewrite (parse_iso_text t s D). eauto. Qed.

Lemma read_digits_inv n : forall hi acc s v r, read_digits n hi acc s = (v, r) ->
  exists ds, s = (ds ++ r)%string /\ digits_from acc ds = Some v /\ (String.length ds <= n)%nat.
Proof.
  induction n as [|n IH]; intros hi acc s v r H; cbn [read_digits] in H.
  - exists ""%string. injection H as <- <-. split; [reflexivity|]. split; [reflexivity|]. cbn. lia.
  - destruct s as [|c s].
    + exists ""%string. injection H as <- <-. split; [reflexivity|]. split; [reflexivity|]. cbn. lia.
    + destruct ((acc * 10 <=? hi) && is_digit c) eqn:E.
      * apply IH in H as (ds & -> & D & L). exists (String c ds). split; [reflexivity|]. cbn [digits_from String.length].
        rewrite digit_eq. apply andb_prop in E as [_ ->]. replace (10 * acc + digit_val c) with (acc * 10 + digit_val c) by lia.
        split; [exact D|lia].
      * exists ""%string. injection H as <- <-. split; [reflexivity|]. split; [reflexivity|]. cbn. lia.
Qed.
Lemma get_number_inv lo hi n s v r : (0 < n)%nat -> 0 <= hi -> get_number lo hi n s = Some (v, r) -> exists f, s = (f ++ r)%string /\ field n lo hi f.
Proof.
  intros Hn Hhi H. unfold get_number in H. destruct (skip_space_inv s) as (sp & E & B).
  destruct (starts_digit (skip_space s)) eqn:SD; [|discriminate].
  destruct (read_digits n hi 0 (skip_space s)) as [v' r'] eqn:R. 
  destruct ((lo <=? v') && (v' <=? hi)) eqn:Rg; [|discriminate]. injection H as -> ->.
  pose proof (read_digits_inv _ _ _ _ _ _ R) as (ds & Es & D & L).
  exists (sp ++ ds)%string. split; [rewrite E at 1; rewrite Es; symmetry; apply sapp_assoc|].
  exists sp, ds, v. split; [reflexivity|]. split; [exact B|]. split; [|split; [exact L|lia]]. split; [|exact D].
  intros ->. destruct n as [|n]; [lia|]. destruct (skip_space s) as [|c t] eqn:Sk; [discriminate|].
  cbn [starts_digit] in SD. cbn [read_digits] in R. rewrite SD in R. replace (0 * 10 <=? hi) with true in R by lia. cbn [andb] in R.
  apply read_digits_inv in R as (ds' & E' & _ & _). cbn in Es. rewrite <- Es in E'. 
  apply (f_equal String.length) in E'. rewrite sapp_length in E'. cbn in E'. lia.
Qed.
Lemma get_char_inv c s r : get_char c s = Some r -> s = String c r.
Proof. destruct s as [|a s]; [discriminate|]. cbn. destruct (Ascii.eqb_spec a c); congruence. Qed.
Lemma get_number_field n lo hi f c rest : (0 < n)%nat -> field n lo hi f -> is_digit c = false ->
  exists v, get_number lo hi n (f ++ String c rest) = Some (v, String c rest).
Proof.
  intros Hn (sp & ds & v & -> & B & N & L & R) Dc. exists v. unfold get_number.
  destruct (number_head ds v N) as (c0 & r0 & -> & D0).
  rewrite sapp_assoc. rewrite skip_space_app; [|exact B|cbn; apply digit_not_space; exact D0].
  replace (starts_digit (String c0 r0 ++ String c rest)) with true by (cbn; congruence). destruct N as [_ N].
  assert (G : forall m s acc, (String.length s <= m)%nat -> 0 <= acc -> digits_from acc s = Some v ->
     read_digits m hi acc (s ++ String c rest) = (v, String c rest)).
  { clear - Dc R. induction m as [|m IH]; intros s acc Lm Ha D; destruct s as [|a s]; cbn [String.length] in Lm; try lia; cbn [String.append read_digits].
    - cbn in D. congruence.
    - rewrite Dc. rewrite andb_false_r. cbn in D. congruence.
    - pose proof (digits_from_bound _ _ _ Ha D) as Bd. cbn [digits_from] in D. rewrite digit_eq in D. destruct (is_digit a) eqn:Da; [|discriminate].
      pose proof (digit_val_range a Da).
      assert (10 * acc <= v).
      { cbn [String.length] in Bd. rewrite Nat2Z.inj_succ, Z.pow_succ_r in Bd by lia.
        pose proof (Z.pow_pos_nonneg 10 (Z.of_nat (String.length s)) ltac:(lia) ltac:(lia)). nia. }
      replace (acc * 10 <=? hi) with true by lia. cbn [andb]. apply IH; [lia|lia|]. rewrite <- D. f_equal. lia. }
  rewrite (G n (String c0 r0) 0) by (assumption || lia). replace ((lo <=? v) && (v <=? hi)) with true by lia. reflexivity.
Qed.

Lemma parse_iso_outcome s : (exists t, parse_iso s = Ok t) \/ parse_iso s = Throw EInvalidArgument.
Proof. unfold parse_iso. destruct (strptime_iso s) as [[x r]|]; eauto. Qed.
Theorem parse_iso_accepts s : (exists t, parse_iso s = Ok t) <-> time_form s.
Proof.
  split.
  - intros [t H]. unfold parse_iso in H. destruct (strptime_iso s) as [[x r]|] eqn:E; [clear H|discriminate].
    unfold strptime_iso in E.
    repeat match type of E with
      match ?e with _ => _ end = _ => let Q := fresh "Q" in destruct e as [[? ?]|] eqn:Q; [|discriminate]
    | match ?e with _ => _ end = _ => let Q := fresh "Q" in destruct e as [?|] eqn:Q; [|discriminate] end.
    injection E as <- <-.
    repeat match goal with
    | Q : get_number _ _ _ _ = Some _ |- _ => apply get_number_inv in Q; [|lia..]; destruct Q as (? & -> & ?)
    | Q : get_char _ _ = Some _ |- _ => apply get_char_inv in Q; subst end.
    unfold time_form. do 7 eexists. repeat (split; [eassumption|]). reflexivity.
  - intros (y & mo & d & h & mi & se & rest & Fy & Fmo & Fd & Fh & Fmi & Fse & ->). unfold parse_iso, strptime_iso.
    cbn [String.append].
    destruct (get_number_field 4 _ _ y "-" (mo ++ String "-" (d ++ String "T" (h ++ String ":" (mi ++ String ":" (se ++ String "Z" rest))))) ltac:(lia) Fy eq_refl) as [v1 ->].
    cbn [get_char Ascii.eqb Bool.eqb].
    destruct (get_number_field 2 _ _ mo "-" (d ++ String "T" (h ++ String ":" (mi ++ String ":" (se ++ String "Z" rest)))) ltac:(lia) Fmo eq_refl) as [v2 ->].
    cbn [get_char Ascii.eqb Bool.eqb].
    destruct (get_number_field 2 _ _ d "T" (h ++ String ":" (mi ++ String ":" (se ++ String "Z" rest))) ltac:(lia) Fd eq_refl) as [v3 ->].
    cbn [get_char Ascii.eqb Bool.eqb].
    destruct (get_number_field 2 _ _ h ":" (mi ++ String ":" (se ++ String "Z" rest)) ltac:(lia) Fh eq_refl) as [v4 ->].
    cbn [get_char Ascii.eqb Bool.eqb].
    destruct (get_number_field 2 _ _ mi ":" (se ++ String "Z" rest) ltac:(lia) Fmi eq_refl) as [v5 ->].
    cbn [get_char Ascii.eqb Bool.eqb].
    destruct (get_number_field 2 _ _ se "Z" rest ltac:(lia) Fse eq_refl) as [v6 ->].
    cbn [get_char Ascii.eqb Bool.eqb]. eauto.
Qed.
Theorem timestamp_rejects s a : ~ time_form s <-> set_attribute "timestamp" s a = Ok (a, Some EInvalidArgument).
Proof.
  unfold set_attribute, timestamp_text. cbn [String.eqb Ascii.eqb Bool.eqb]. rewrite <- parse_iso_accepts.
  destruct (parse_iso_outcome s) as [[t ->] | ->]; split; intros H; try congruence.
  - exfalso. apply H. eauto.
  - intros [t E]. discriminate.
Qed.
Theorem user_text_spec s a :
  (slen s <= 1021 -> exists a', set_attribute "user" s a = Ok (a', None) /\ o_user a' = s) /\
  (slen s > 1021 -> set_attribute "user" s a = Ok (a, Some ELength)).
Proof.
  unfold set_attribute, user_text. cbn [String.eqb Ascii.eqb Bool.eqb]. change max_length_username with 1021.
  destruct (slen s >? 1021) eqn:E; split; intros H; try lia; eauto.
Qed.
Theorem visible_text_spec s a : exists a', set_attribute "visible" s a = Ok (a', None) /\ (o_visible a' = false <-> s = "false"%string).
Proof.
  unfold set_attribute, visible_text. cbn [String.eqb Ascii.eqb Bool.eqb]. eexists. split; [reflexivity|].
  change (if String.eqb s "false" then set_visible false a else set_visible true a) with (visible_text s a). unfold visible_text.
  destruct (String.eqb_spec s "false"); cbn [o_visible set_visible]; split; congruence.
Qed.
Theorem set_attribute_frame attr value a a' e : set_attribute attr value a = Ok (a', e) ->
  unchanged_except attr a a' /\ (e <> None -> a' = a).
Proof.
  unfold set_attribute. intros H.
  assert (G : forall name, unchanged_except name a a) by (intros; repeat split).
  destruct (String.eqb_spec attr "id") as [->|].
  { destruct (string_to_osm_object_id_t value); try discriminate. injection H as <- <-. split; [|congruence]. repeat split; congruence || reflexivity. }
  destruct (String.eqb_spec attr "version") as [->|].
  { destruct (string_to_osm_version_t value); try discriminate. injection H as <- <-. split; [|congruence]. repeat split; congruence || reflexivity. }
  destruct (String.eqb_spec attr "changeset") as [->|].
  { destruct (string_to_osm_changeset_id_t value); try discriminate. injection H as <- <-. split; [|congruence]. repeat split; congruence || reflexivity. }
  destruct (String.eqb_spec attr "timestamp") as [->|].
  { unfold timestamp_text in H. destruct (parse_iso value); try discriminate; injection H as <- <-; (split; [|congruence]); [|apply G]. repeat split; congruence || reflexivity. }
  destruct (String.eqb_spec attr "uid") as [->|].
  { destruct (string_to_osm_user_id_t value); try discriminate. injection H as <- <-. split; [|congruence]. repeat split; congruence || reflexivity. }
  destruct (String.eqb_spec attr "user") as [->|].
  { unfold user_text in H. destruct (slen value >? max_length_username); injection H as <- <-; (split; [|congruence]); [apply G|]. repeat split; congruence || reflexivity. }
  destruct (String.eqb_spec attr "visible") as [->|].
  { injection H as <- <-. split; [|congruence]. unfold visible_text. destruct (String.eqb value "false"); repeat split; congruence || reflexivity. }
  injection H as <- <-. split; [apply G|congruence].
Qed.

Theorem junk_after_timestamp : exists s t, (forall t', ~ iso_text t' s) /\ parse_iso s = Ok t.
Proof.
  exists "2011-02-03T04:05:06Zuh"%string. eexists. split; [|vm_compute; reflexivity].
  intros t (n & d & ys & ms & ds & h & hs & mi & mis & se & ses & _ & _ & _ & _ & _ & (Ny & _) & (Nm & _) & (Nd & _) & (Nh & _) & (Nmi & _) & (Ns & _) & E).
  apply (f_equal String.length) in E.
  repeat (rewrite ?sapp_length in E; cbn [String.length] in E). lia.
Qed.
Fixpoint repeat_char (n : nat) (c : ascii) : string := match n with O => EmptyString | S k => String c (repeat_char k c) end.
Theorem user_256_characters : exists s, slen s = 256 /\ set_attribute "user" s attrs_new = Ok (set_user s attrs_new, None).
Proof. exists (repeat_char 256 "x"). split; vm_compute; reflexivity. Qed.
Theorem number_overflow : exists s n, denotes s n /\ set_attribute "id" s attrs_new = UB.
Proof.
  exists "9223372036854775808"%string. eexists. split; [|vm_compute; reflexivity].
  change "9223372036854775808"%string with ("" ++ "9223372036854775808" ++ "")%string.
  apply den_pos; [exact I| |exact I]. split; [discriminate|]. vm_compute. reflexivity.
Qed.
