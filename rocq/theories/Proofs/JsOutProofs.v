(** What Javascript programs write: shapefile attributes and tables. *)
From Verif Require Import Base.Prelude Base.Decimal Model.Osm Model.Time Model.Attr Model.Geom Model.Shapefile Model.Unicode Model.Js
  Spec.TimeSpec Spec.UnicodeSpec Spec.JsSpec Proofs.TimeProofs Proofs.AttrProofs Proofs.WktProofs Proofs.UnicodeProofs.
Local Open Scope Z_scope.

(* ---- parts of texts ---- *)
Lemma text_app a b : text (a ++ b) <-> text a /\ text b.
Proof. apply Forall_app. Qed.
Lemma plain_app a b : plain (a ++ b) -> plain a /\ plain b.
Proof.
  intros [T N]. apply text_app in T. repeat split; try tauto; intros I; apply N, in_or_app; auto.
Qed.
Lemma append_assoc (a b c : string) : ((a ++ b) ++ c = a ++ b ++ c)%string.
Proof. induction a; [reflexivity|]. cbn [append]. now rewrite IHa. Qed.
Lemma all_app a b : utf8_append_all (a ++ b) = (utf8_append_all a ++ utf8_append_all b)%string.
Proof. induction a as [|c a IH]; [reflexivity|]. cbn [app]. rewrite !all_cons, IH. now rewrite append_assoc. Qed.
Lemma utf8_app a b : text a -> text b -> utf8 (a ++ b) = (utf8 a ++ utf8 b)%string.
Proof. intros A B. rewrite <- !u8_all by (try apply text_app; auto). apply all_app. Qed.
Lemma utf16_app a b : utf16 (a ++ b) = utf16 a ++ utf16 b.
Proof. unfold utf16. apply flat_map_app. Qed.
Lemma fill8_ok : forall t w, text t -> 0 <= w -> exists p r, t = p ++ r /\ fill8 w t = utf8_append_all p /\ slen (utf8_append_all p) <= w /\
  match r with [] => True | c :: _ => slen (utf8_append_all (p ++ [c])) > w end.
Proof.
  induction t as [|c t IH]; intros w T W.
  - exists [], []. repeat split; auto.
  - inversion T as [|? ? S T']; subst. pose proof (slen_append c S) as L. cbn [fill8]. destruct (Z.leb_spec (slen (u8_append c)) w) as [H|H].
    + destruct (IH (w - slen (u8_append c)) T' ltac:(lia)) as (p & r & E & F & B & X). exists (c :: p), r. subst t. split; [reflexivity|].
      rewrite F, all_cons. split; [reflexivity|]. rewrite slen_app. split; [lia|]. destruct r as [|d r]; [exact I|].
      cbn [app]. rewrite all_cons, slen_app. lia.
    + exists [], (c :: t). repeat split; auto. cbn [app]. rewrite all_cons, slen_app. cbn. lia.
Qed.
Lemma sizes_le t : text t -> Z.of_nat (List.length (utf16 t)) <= slen (utf8 t).
Proof.
  intros T. rewrite <- u8_all, <- u16_all by assumption. unfold text in T. induction T as [|c t S T IH]; [vm_compute; intros X; discriminate X|].
  rewrite all_cons, flat_cons, slen_app, app_length.
  assert (H : Z.of_nat (List.length (u16_append c)) <= slen (u8_append c)); [|lia]. unfold scalar in S. unfold u8_append, u16_append, slen.
  destruct (Z.ltb_spec c 128), (Z.ltb_spec c 2048), (Z.ltb_spec c 65536); cbn [String.length List.length]; lia.
Qed.
Lemma utf16_cons c t : utf16 (c :: t) = utf16_units c ++ utf16 t.
Proof. reflexivity. Qed.
Lemma units_small c : c < 65536 -> utf16_units c = [c].
Proof. intros H. unfold utf16_units. now rewrite (proj2 (Z.leb_le c 65535)) by lia. Qed.
Lemma units_large c : 65536 <= c -> exists a b, utf16_units c = [a; b].
Proof. intros H. unfold utf16_units. rewrite (proj2 (Z.leb_gt c 65535)) by lia. eauto. Qed.
Lemma cut_units : forall t n, ~ splits (Z.of_nat n) t -> exists t1 t2, t = t1 ++ t2 /\ firstn n (utf16 t) = utf16 t1 /\
  (t2 = [] \/ List.length (utf16 t1) = n).
Proof.
  induction t as [|c t IH]; intros n N.
  { exists [], []. destruct n; auto. }
  destruct n as [|n]; [exists [], (c :: t); auto|].
  destruct (Z.ltb_spec c 65536) as [H|H].
  - destruct (IH n) as (t1 & t2 & -> & F & C).
    { intros (a & d & b & -> & D & L). apply N. exists (c :: a), d, b. repeat split; auto. rewrite utf16_cons, units_small by lia. cbn [app List.length]. lia. }
    exists (c :: t1), t2. split; [reflexivity|]. rewrite !utf16_cons, units_small by lia. cbn [app firstn List.length]. rewrite F. split; [reflexivity|]. destruct C; [now left|right; lia].
  - destruct (units_large c H) as (x & y & U). destruct n as [|n].
    { exfalso. apply N. exists [], c, t. repeat split; auto. }
    destruct (IH n) as (t1 & t2 & -> & F & C).
    { intros (a & d & b & -> & D & L). apply N. exists (c :: a), d, b. repeat split; auto. rewrite utf16_cons, U. cbn [app List.length]. lia. }
    exists (c :: t1), t2. split; [reflexivity|]. rewrite !utf16_cons, U. cbn [app firstn List.length]. rewrite F. split; [reflexivity|]. destruct C; [now left|right; lia].
Qed.
Lemma decode16_prefix t u : text t -> utf16_decode (utf16 t ++ u) = match utf16_decode u with Some l => Some (t ++ l) | None => None end.
Proof.
  intros T. rewrite <- u16_all by assumption. unfold text in T. induction T as [|c t S T IH]; [cbn; destruct (utf16_decode u); reflexivity|].
  rewrite flat_cons, <- app_assoc, decode16_char by assumption. rewrite IH. destruct (utf16_decode u); reflexivity.
Qed.
Lemma lead_alone c : scalar c -> 65536 <= c -> exists a, firstn 1 (utf16_units c) = [a] /\ utf16_decode [a] = None.
Proof.
  intros S H. pose proof (u16_all [c]) as E. unfold utf16 in E. cbn [flat_map] in E. rewrite !app_nil_r in E. rewrite <- E by (apply Forall_cons; [exact S|apply Forall_nil]).
  unfold u16_append. rewrite (proj2 (Z.ltb_ge c 65536)) by lia. cbn [firstn]. eexists. split; [reflexivity|]. cbn [utf16_decode].
  unfold scalar in S. replace ((55296 <=? c / 1024 + 55232) && (c / 1024 + 55232 <? 57344)) with true by lia. reflexivity.
Qed.
Lemma cut_inside t n : text t -> splits (Z.of_nat n) t -> utf16_decode (firstn n (utf16 t)) = None.
Proof.
  intros T (a & c & b & -> & H & L). apply text_app in T. destruct T as [Ta T]. inversion T as [|? ? S Tb]; subst.
  rewrite utf16_app, utf16_cons, firstn_app. rewrite firstn_all2 by lia. rewrite decode16_prefix by assumption.
  replace (n - List.length (utf16 a))%nat with 1%nat by lia. rewrite firstn_app.
  destruct (units_large c H) as (x & y & U). destruct (lead_alone c S H) as (z & E & D). rewrite U in *. cbn [firstn List.length Nat.sub app] in *.
  now rewrite E, D.
Qed.

Theorem field_text w t : plain t -> 0 <= w <= 255 ->
  (~ splits 256 t -> exists p, js_field_text w (utf16 t) = Ok (utf8 p) /\ longest_part w t p) /\
  (splits 256 t -> js_field_text w (utf16 t) = Throw ERuntime).
Proof.
  intros P W. pose proof (proj1 P) as T. unfold js_field_text. rewrite (proj2 (Z.ltb_ge w 0)) by lia. unfold u_strToUTF8.
  change (Z.to_nat (max_dbf_field_length + 1)) with (Z.to_nat 256). change 256 with (Z.of_nat 256) at 1 3. split; intros N.
  - destruct (cut_units t 256 N) as (t1 & t2 & -> & F & C). change (Z.to_nat 256) with 256%nat. rewrite F. pose proof (plain_app _ _ P) as [P1 P2].
    pose proof (proj1 P1) as T1. rewrite (proj2 (decode16 (utf16 t1) t1 (utf16_js t1 T1))) by auto.
    pose proof (sizes_le t1 T1) as Z. pose proof (u8_all t1 T1) as U. rewrite U.
    assert (FIT : slen (utf8 t1) <= w -> longest_part w (t1 ++ t2) t1).
    { intros H. exists t2. split; [reflexivity|]. split; [exact H|]. destruct t2; [exact I|]. destruct C as [C|C]; [discriminate|]. lia. }
    destruct (Z.ltb_spec (slen (utf8 t1)) w); [|destruct (Z.eqb_spec (slen (utf8 t1)) w)].
    + exists t1. rewrite c_string_plain by assumption. split; [reflexivity|]. apply FIT. lia.
    + exists t1. rewrite c_string_plain by assumption. split; [reflexivity|]. apply FIT. lia.
    + destruct (fill8_ok t1 w T1 ltac:(lia)) as (p & r & E & G & B & X). exists p. subst t1. apply plain_app in P1. destruct P1 as [Pp Pr].
      rewrite G. rewrite u8_all in B by apply Pp. rewrite u8_all by apply Pp. rewrite c_string_plain by assumption. split; [reflexivity|].
      exists (r ++ t2). rewrite <- app_assoc. split; [reflexivity|]. split; [exact B|].
      destruct r as [|d r]; [rewrite app_nil_r in *; lia|]. cbn [app]. rewrite <- u8_all; [exact X|].
      apply text_app. split; [apply Pp|]. destruct Pr as [Pr _]. inversion Pr; subst. apply Forall_cons; [assumption|apply Forall_nil].
  - change (Z.to_nat 256) with 256%nat. now rewrite (cut_inside t 256 T N).
Qed.
Theorem field_text_total w u : js_field_text w u = Throw ERuntime \/ exists s, js_field_text w u = Ok s /\ no_nul s.
Proof.
  assert (C : forall s, no_nul (c_string s)).
  { induction s as [|a s IH]; intros i; [destruct i; discriminate|]. cbn [c_string]. destruct (Z.eqb_spec (byte_of a) 0) as [E|E]; [destruct i; discriminate|].
    destruct i; cbn [String.get]; [|apply IH]. intros X. inversion X; subst. apply E. reflexivity. }
  unfold js_field_text. destruct (w <? 0); [auto|]. destruct (u_strToUTF8 _ _); eauto.
Qed.

(* ---- logical values ---- *)
Lemma value_char c u : scalar c -> utf8_value (u16_append c ++ u) = (u8_append c ++ utf8_value u)%string.
Proof.
  intros S. unfold scalar in S. unfold u16_append. destruct (Z.ltb_spec c 65536); cbn [app utf8_value].
  - replace ((55296 <=? c) && (c <? 57344)) with false by lia. reflexivity.
  - replace ((55296 <=? c / 1024 + 55232) && (c / 1024 + 55232 <? 57344)) with true by lia.
    replace (c / 1024 + 55232 <? 56320) with true by lia. replace ((56320 <=? c mod 1024 + 56320) && (c mod 1024 + 56320 <? 57344)) with true by lia.
    cbn [andb]. f_equal. f_equal. lia.
Qed.
Lemma value_text t : plain t -> c_string (utf8_value (utf16 t)) = utf8 t.
Proof.
  intros P. rewrite <- (c_string_plain t P). f_equal. destruct P as [T _]. rewrite <- u8_all, <- u16_all by assumption.
  unfold text in T. induction T as [|c t S T IH]; [reflexivity|]. rewrite flat_cons, all_cons, value_char by assumption. now rewrite IH.
Qed.
Lemma utf8_small c t : 0 <= c < 128 -> utf8 (c :: t) = String (char_of c) (utf8 t).
Proof.
  intros H. unfold utf8. cbn [flat_map]. unfold utf8_bytes at 1. rewrite (proj2 (Z.leb_le c 127)) by lia. reflexivity.
Qed.
Lemma digit_code c d : digit c = Some d -> 0 <= byte_of c < 128.
Proof.
  rewrite digit_eq. unfold byte_of. destruct (is_digit c) eqn:E; [|discriminate]. unfold is_digit in E. lia.
Qed.
Lemma utf8_digits s : forall a n, digits_from a s = Some n -> utf8 (ascii_text s) = s.
Proof.
  induction s as [|c s IH]; intros a n E; [reflexivity|]. cbn [digits_from] in E. destruct (digit c) eqn:D; [|discriminate].
  unfold ascii_text. cbn [list_ascii_of_string map]. fold (byte_of c). rewrite utf8_small by (eapply digit_code; eauto).
  fold (ascii_text s). rewrite (IH _ _ E). now rewrite char_byte.
Qed.
Lemma logical_letter (c : ascii) r b : In (byte_of c, b) (map (fun x => (x, true)) yes_chars ++ map (fun x => (x, false)) no_chars) ->
  js_field_logical (String c r) = Ok (Some b).
Proof.
  unfold yes_chars, no_chars. cbn [map app In]. intros I.
  repeat (destruct I as [I|I]; [injection I as E <-; symmetry in E; apply char_byte' in E; subst c; reflexivity|]). destruct I.
Qed.
Lemma digits_head s n : number s n -> exists c r d, s = String c r /\ digit c = Some d.
Proof. intros [N D]. destruct s as [|c r]; [congruence|]. cbn [digits_from] in D. destruct (digit c) eqn:E; [|discriminate]. eauto. Qed.
Lemma not_starting c r d x y : digit c = Some d -> digit x = None -> digit y = None -> starts (String c r) x y = false.
Proof.
  intros D X Y. cbn [starts]. destruct (Ascii.eqb_spec c x) as [-> |]; [congruence|]. destruct (Ascii.eqb_spec c y) as [-> |]; [congruence|]. reflexivity.
Qed.
Lemma number_nonneg s : forall a n, 0 <= a -> digits_from a s = Some n -> 0 <= n.
Proof.
  induction s as [|c s IH]; intros a n A E; cbn [digits_from] in E; [inversion E; lia|]. destruct (digit c) eqn:D; [|discriminate].
  apply IH in E; auto. unfold digit in D. destruct ((48 <=? _) && (_ <=? 57)) eqn:X; [|discriminate]. inversion D. lia.
Qed.
Lemma atoi_number s n : number s n -> in_i32 n -> atoi s = Ok n.
Proof.
  intros N R. unfold atoi. rewrite (atoll_denotes s n).
  - cbn [obind]. rewrite (proj2 (in_i32b_spec n)) by exact R. reflexivity.
  - replace s with ("" ++ s ++ "")%string; [apply den_pos; [exact I|exact N|exact I]|]. cbn [append]. clear. induction s; [reflexivity|]. cbn [append]. now rewrite IHs.
  - unfold in_i32, in_i64, int32_min, int32_max, int64_min, int64_max in *. lia.
Qed.
Lemma logical_number s n : number s n -> n <= int32_max ->
  js_field_logical s = Ok (if n =? 1 then Some true else if String.eqb s "0" then Some false else None).
Proof.
  intros N L. unfold js_field_logical. pose proof (number_nonneg s 0 n ltac:(lia) (proj2 N)) as G.
  rewrite (atoi_number s n N) by (unfold in_i32, int32_min; lia). cbn [obind]. destruct (digits_head s n N) as (c & r & d & -> & D).
  rewrite !(not_starting c r d) by (auto; reflexivity). rewrite !orb_false_r. destruct (n =? 1); [reflexivity|]. destruct (String.eqb _ _); reflexivity.
Qed.
Lemma append_nil s : (s ++ "")%string = s.
Proof. induction s; [reflexivity|]. cbn [append]. now rewrite IHs. Qed.
Lemma logical_negative s n : number s n -> - int32_min >= n -> js_field_logical (String "-" s) = Ok None.
Proof.
  intros N L. unfold js_field_logical, atoi. pose proof (number_nonneg s 0 n ltac:(lia) (proj2 N)) as G. rewrite (atoll_denotes _ (- n)).
  - cbn [obind]. rewrite (proj2 (in_i32b_spec (- n))) by (unfold in_i32, int32_min, int32_max in *; lia).
    cbn [obind starts]. replace (- n =? 1) with false by lia. reflexivity.
  - replace (String "-" s) with ("" ++ "-" ++ s ++ "")%string by (cbn [append]; now rewrite append_nil). apply den_minus; [exact I|exact N|exact I].
  - unfold in_i64, int32_min, int64_min, int64_max in *. lia.
Qed.
Lemma ascii_head c : 0 <= c < 128 -> byte_of (char_of c) = c.
Proof. intros H. apply byte_char. lia. Qed.
Theorem logical t b : plain t -> says t b -> js_field_logical (utf8 t) = Ok b.
Proof.
  intros P [(c & r & -> & I & ->)|[(c & r & -> & I & ->)|[(s & n & -> & N & L & ->)|(s & n & -> & N & L & ->)]]].
  - assert (R : 0 <= c < 128) by (cbn [yes_chars In] in I; lia). rewrite utf8_small by exact R. apply logical_letter. rewrite (ascii_head c R).
    apply in_or_app. left. apply in_map_iff. eauto.
  - assert (R : 0 <= c < 128) by (cbn [no_chars In] in I; lia). rewrite utf8_small by exact R. apply logical_letter. rewrite (ascii_head c R).
    apply in_or_app. right. apply in_map_iff. eauto.
  - rewrite (utf8_digits s 0 n) by apply N. now apply logical_number.
  - rewrite utf8_small by lia. rewrite (utf8_digits s 0 n) by apply N. change (char_of 45) with "-"%char. eapply logical_negative; eauto.
Qed.
Theorem logical_overflow s n : number s n -> int32_max < n -> js_field_logical s = UB.
Proof.
  intros N L. unfold js_field_logical, atoi.
  assert (X : in_i64 n -> atoll s = Ok n).
  { intros R. apply atoll_denotes; [|exact R]. replace s with ("" ++ s ++ "")%string by (cbn [append]; apply append_nil). apply den_pos; [exact I|exact N|exact I]. }
  destruct (in_i64b n) eqn:E.
  - apply in_i64b_spec in E. rewrite (X E). cbn [obind]. destruct (in_i32b n) eqn:F; [|reflexivity]. apply in_i32b_spec in F. unfold in_i32 in F. lia.
  - assert (Y : atoll s = UB); [|now rewrite Y]. unfold atoll. destruct (number_head s n N) as (c & r & -> & Dc). destruct N as [_ N].
    pose proof (skip_space_app "" (String c r) I) as K. cbn [append] in K. rewrite K by (cbn; apply digit_not_space; exact Dc).
    destruct (digit_not_sign c Dc) as [-> ->]. pose proof (digits_from_scan _ 0 n ""%string N eq_refl) as Q. rewrite append_nil in Q. rewrite Q. cbn [fst]. now rewrite E.
Qed.

(* ---- add ---- *)
Lemma attribute_ok f n v : usable f v -> exists d, js_attribute f n v = Ok d /\ written f n v d.
Proof.
  destruct v as [|u i]; intros U; cbn [usable js_attribute] in *; [eexists; split; [reflexivity|constructor]|].
  destruct (f_type f) eqn:T.
  - destruct U as (W & t & -> & P & S). destruct (proj1 (field_text (f_width f) t P W) S) as (p & E & L). rewrite E. cbn [obind].
    eexists. split; [reflexivity|]. now apply wr_text.
  - eexists. split; [reflexivity|]. now apply wr_int.
  - destruct U.
  - destruct U as (t & b & -> & P & S). rewrite value_text by exact P. rewrite (logical t b P S). cbn [obind].
    eexists. split; [reflexivity|]. destruct b; [now apply wr_bool|now apply wr_unknown].
Qed.
Lemma attributes_ok att fs : forall n, Forall (fun f => usable f (value_of att f)) fs ->
  exists l, js_attributes fs n att = (l, Ok tt) /\ List.length l = List.length fs /\
    forall i f, nth_error fs i = Some f -> exists d, nth_error l i = Some d /\ written f (n + Z.of_nat i) (value_of att f) d.
Proof.
  induction fs as [|f fs IH]; intros n F.
  - exists []. repeat split; auto. intros [|i] f E; discriminate.
  - inversion F as [|? ? U F']; subst. destruct (attribute_ok f n _ U) as (d & E & W). destruct (IH (n + 1) F') as (l & El & Ln & Nth).
    exists (d :: l). cbn [js_attributes]. fold (value_of att f). rewrite E, El. split; [reflexivity|]. split; [cbn [List.length]; lia|].
    intros [|i] g G; cbn [nth_error] in *.
    + inversion G; subst. exists d. split; [reflexivity|]. now rewrite Z.add_0_r.
    + destruct (Nth i g G) as (d' & D & W'). exists d'. split; [exact D|]. now replace (n + Z.of_nat (S i)) with (n + 1 + Z.of_nat i) by lia.
Qed.
Theorem add_ok fs att : Forall (fun f => usable f (value_of att f)) fs ->
  exists l, js_add fs (Ok tt) att = (l, Ok 1) /\ List.length l = List.length fs /\
    forall i f, nth_error fs i = Some f -> exists d, nth_error l i = Some d /\ written f (Z.of_nat i) (value_of att f) d.
Proof.
  intros F. destruct (attributes_ok att fs 0 F) as (l & E & L & N). exists l. unfold js_add. rewrite E. split; [reflexivity|]. split; [exact L|exact N].
Qed.
Lemma attribute_field f n v d : js_attribute f n v = Ok d -> dbf_field d = n.
Proof.
  destruct v as [|u i]; cbn [js_attribute]; [intros E; now inversion E|]. destruct (f_type f).
  - destruct (js_field_text _ _); cbn [obind]; intros E; now inversion E.
  - intros E; now inversion E.
  - discriminate.
  - destruct (js_field_logical _) as [b| | |]; cbn [obind]; intros E; inversion E. destruct b; reflexivity.
Qed.
Lemma attributes_prefix att fs : forall n, let (l, o) := js_attributes fs n att in
  map dbf_field l = count_from n (List.length l) /\ (List.length l <= List.length fs)%nat /\ (o = Ok tt <-> List.length l = List.length fs).
Proof.
  induction fs as [|f fs IH]; intros n; cbn [js_attributes]; [repeat split; auto|].
  fold (value_of att f). destruct (js_attribute f n (value_of att f)) as [d|e| |] eqn:E.
  - specialize (IH (n + 1)). destruct (js_attributes fs (n + 1) att) as [l o]. destruct IH as (M & L & O). cbn [map List.length count_from].
    rewrite (attribute_field _ _ _ _ E), M. split; [reflexivity|]. split; [lia|]. rewrite O. split; intros H; lia.
  - cbn. split; [reflexivity|]. split; [lia|]. split; discriminate.
  - cbn. split; [reflexivity|]. split; [lia|]. split; discriminate.
  - cbn. split; [reflexivity|]. split; [lia|]. split; discriminate.
Qed.
Theorem add_order fs g att l o : js_add fs g att = (l, o) ->
  map dbf_field l = count_from 0 (List.length l) /\ (List.length l <= List.length fs)%nat /\
  (g = Ok tt -> (o = Ok 1 <-> List.length l = List.length fs)) /\ (g <> Ok tt -> l = []).
Proof.
  unfold js_add. destruct g as [[]|e| |].
  - pose proof (attributes_prefix att fs 0) as H. destruct (js_attributes fs 0 att) as [l' o']. intros E. inversion E; subst. destruct H as (M & L & O).
    split; [exact M|]. split; [exact L|]. split; [|congruence]. intros _. rewrite <- O. destruct o' as [[]|e| |]; cbn [obind]; split; intros X; congruence.
  - destruct (is_illegal e); intros E; inversion E; subst; repeat split; cbn; auto; try lia; discriminate.
  - intros E; inversion E; subst; repeat split; cbn; auto; try lia; discriminate.
  - intros E; inversion E; subst; repeat split; cbn; auto; try lia; discriminate.
Qed.
Theorem illegal_is_one fs att : js_add fs (Throw EIllegalGeometry) att = ([], Ok 1).
Proof. reflexivity. Qed.

(* ---- tables ---- *)
Lemma free_utf8 (x : Z) t : 0 <= x < 128 -> text t -> ~ In x t -> free (char_of x) (utf8 t) = true.
Proof.
  intros R T N. rewrite <- u8_all by assumption. unfold text in T. induction T as [|c t S T IH]; [reflexivity|].
  rewrite all_cons, free_app, IH by (intros I; apply N; now right). rewrite andb_true_r.
  assert (Q : forall y, 0 <= y < 256 -> y <> x -> Ascii.eqb (char_of y) (char_of x) = false).
  { intros y Hy Hn. apply Ascii.eqb_neq. intros E. apply (f_equal byte_of) in E. rewrite !byte_char in E by lia. congruence. }
  assert (c <> x) by (intros ->; apply N; now left).
  assert (D : forall k, 0 <= c / k mod 64 < 64) by (intros; apply Z.mod_pos_bound; lia).
  pose proof (D 1) as D1. pose proof (D 64) as D2. pose proof (D 4096) as D3. clear D.
  unfold scalar in S. unfold u8_append.
  destruct (Z.ltb_spec c 128); [|destruct (Z.ltb_spec c 2048); [|destruct (Z.ltb_spec c 65536)]]; cbn [free]; rewrite !Q by lia; reflexivity.
Qed.
Lemma split_free c a : free c a = true -> split_at c a = [a].
Proof.
  induction a as [|d a IH]; intros F; [reflexivity|]. cbn [free] in F. apply andb_true_iff in F. destruct F as [F1 F2]. cbn [split_at].
  destruct (Ascii.eqb d c); [discriminate|]. now rewrite IH.
Qed.
Lemma split_here c a b : free c a = true -> split_at c (a ++ String c b) = a :: split_at c b.
Proof.
  induction a as [|d a IH]; intros F; cbn [append split_at].
  - now rewrite Ascii.eqb_refl.
  - cbn [free] in F. apply andb_true_iff in F. destruct F as [F1 F2]. destruct (Ascii.eqb d c); [discriminate|]. now rewrite IH.
Qed.
Lemma printed_text t : plain t -> 4 * (Z.of_nat (List.length (utf16 t)) + 1) <= int32_max -> v8_String_to_ostream (utf16 t) = Ok (utf8 t).
Proof.
  intros P L. pose proof (proj1 P) as T. apply printed; [now apply utf16_js|exact L|]. exists t, t. repeat split; auto. left. split; auto. apply P.
Qed.
Fixpoint line_of (ts : list (list Z)) : string :=
  match ts with [] => EmptyString | [t] => utf8 t | t :: r => (utf8 t ++ String "009" (line_of r))%string end.
Lemma line_more t x r : line_of (t :: x :: r) = (utf8 t ++ String "009" (line_of (x :: r)))%string.
Proof. reflexivity. Qed.
Lemma fields_line ts : forall t, Forall table_text (t :: ts) ->
  csv_fields true (map utf16 (t :: ts)) = Ok (line_of (t :: ts) ++ String "010" "")%string /\
  csv_fields false (map utf16 (t :: ts)) = Ok (String "009" (line_of (t :: ts) ++ String "010" ""))%string.
Proof.
  induction ts as [|x ts IH]; intros t F; inversion F as [|? ? (P & _ & _ & L) F']; subst; cbn [map csv_fields]; rewrite printed_text by assumption; cbn [obind].
  - split; reflexivity.
  - destruct (IH x F') as [_ E]. cbn [map] in E. cbn [csv_fields] in E. rewrite E. cbn [obind append line_of]. rewrite append_assoc. split; reflexivity.
Qed.
Lemma line_free ts : Forall table_text ts -> free "010" (line_of ts) = true.
Proof.
  induction 1 as [|t [|x r] (P & N9 & N10 & _) F IH]; [reflexivity| |].
  - apply (free_utf8 10); [lia|apply P|exact N10].
  - rewrite line_more, free_app. cbn [free]. rewrite IH. pose proof (free_utf8 10 t ltac:(lia) (proj1 P) N10) as Q. change (char_of 10) with "010"%char in Q. rewrite Q. reflexivity.
Qed.
Lemma line_split ts : forall t, Forall table_text (t :: ts) -> split_at "009" (line_of (t :: ts)) = map utf8 (t :: ts).
Proof.
  induction ts as [|x ts IH]; intros t F; inversion F as [|? ? (P & N9 & N10 & _) F']; subst.
  - apply split_free. apply (free_utf8 9); [lia|apply P|exact N9].
  - rewrite line_more. rewrite split_here by (apply (free_utf8 9); [lia|apply P|exact N9]). cbn [map]. f_equal. apply (IH x F').
Qed.
Lemma split_not_nil c s : split_at c s <> [].
Proof. destruct s as [|d s]; cbn [split_at]; [discriminate|]. destruct (Ascii.eqb d c); [discriminate|]. destruct (split_at c s); discriminate. Qed.
Theorem table_ok rows : Forall (fun ts => ts <> [] /\ Forall table_text ts) rows ->
  exists s, csv_file (map (map utf16) rows) = Ok s /\ read_table s = map (map utf8) rows.
Proof.
  induction 1 as [|ts rows (N & F) _ (s & E & R)]; [exists EmptyString; split; reflexivity|].
  destruct ts as [|t ts]; [congruence|]. destruct (fields_line ts t F) as [P _]. cbn [csv_file map]. unfold csv_print. cbn [map] in P. rewrite P. cbn [obind].
  rewrite E. cbn [obind]. eexists. split; [reflexivity|]. rewrite append_assoc. cbn [append]. unfold read_table in *.
  rewrite split_here by now apply line_free. remember (split_at "010" s) as l eqn:L. destruct l as [|x l]; [symmetry in L; now apply split_not_nil in L|].
  cbn [removelast map]. f_equal; [now apply line_split|exact R].
Qed.
Theorem table_confused : exists r r', r <> r' /\ csv_file [map utf16 r] = csv_file [map utf16 r'] /\ Forall (Forall plain) [r; r'].
Proof.
  exists [[97; 9; 98]], [[97]; [98]]. split; [discriminate|]. split; [vm_compute; reflexivity|].
  assert (A : forall c, 0 < c < 128 -> plain [c]) by (intros c H; split; [apply Forall_cons; [left; lia|apply Forall_nil]|cbn [In]; lia]).
  apply Forall_cons; [|apply Forall_cons; [|apply Forall_nil]].
  - apply Forall_cons; [|apply Forall_nil]. split; [repeat first [apply Forall_nil | apply Forall_cons; [left; lia|]]|cbn [In]; lia].
  - apply Forall_cons; [apply A; lia|]. apply Forall_cons; [apply A; lia|apply Forall_nil].
Qed.
