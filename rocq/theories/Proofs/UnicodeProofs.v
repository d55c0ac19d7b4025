(** Proofs about Model/Unicode.v. *)
From Verif Require Import Base.Prelude Model.Osm Model.Unicode Spec.UnicodeSpec.
Local Open Scope Z_scope.

(* ---- bytes ---- *)
Lemma byte_range a : 0 <= byte_of a < 256.
Proof. unfold byte_of. pose proof (N_ascii_bounded a). lia. Qed.
Lemma byte_char b : 0 <= b < 256 -> byte_of (char_of b) = b.
Proof. intros H. unfold byte_of, char_of. rewrite N_ascii_embedding by lia. lia. Qed.
Lemma char_byte a : char_of (byte_of a) = a.
Proof. unfold byte_of, char_of. rewrite N2Z.id. apply ascii_N_embedding. Qed.
Lemma char_byte' a b : byte_of a = b -> a = char_of b.
Proof. intros <-. symmetry. apply char_byte. Qed.

(* ---- the encodings of the model are those of the standard ---- *)
Lemma lor_add_check a n x : forallb (fun i => Z.lor a (Z.of_nat i) =? a + Z.of_nat i) (seq 0 (Z.to_nat n)) = true ->
  0 <= x < n -> Z.lor a x = a + x.
Proof.
  intros H B. rewrite forallb_forall in H. specialize (H (Z.to_nat x)). rewrite in_seq in H.
  specialize (H ltac:(lia)). rewrite Z2Nat.id in H by lia. lia.
Qed.
Lemma six_div c i : 0 <= i -> six c i = c / 64 ^ i mod 64.
Proof. intros H. unfold six. change 63 with (Z.ones 6). rewrite Z.land_ones by lia. rewrite Z.shiftr_div_pow2 by lia. rewrite Z.pow_mul_r by lia. reflexivity. Qed.
Lemma lor128 x : 0 <= x < 64 -> Z.lor 128 x = 128 + x.
Proof. apply lor_add_check. vm_compute. reflexivity. Qed.
Lemma lor192 x : 0 <= x < 32 -> Z.lor 192 x = 192 + x.
Proof. apply lor_add_check. vm_compute. reflexivity. Qed.
Lemma lor224 x : 0 <= x < 16 -> Z.lor 224 x = 224 + x.
Proof. apply lor_add_check. vm_compute. reflexivity. Qed.
Lemma lor240 x : 0 <= x < 8 -> Z.lor 240 x = 240 + x.
Proof. apply lor_add_check. vm_compute. reflexivity. Qed.
Lemma lor_lead x : 0 <= x < 1024 -> Z.lor 55296 x = 55296 + x.
Proof. apply lor_add_check. vm_compute. reflexivity. Qed.
Lemma lor_trail x : 0 <= x < 1024 -> Z.lor 56320 x = 56320 + x.
Proof. apply lor_add_check. vm_compute. reflexivity. Qed.

Lemma u8_bytes c : scalar c -> u8_append c = string_of_bytes (utf8_bytes c).
Proof.
  intros S. unfold scalar in S. unfold u8_append, utf8_bytes.
  destruct (Z.ltb_spec c 128); [rewrite (proj2 (Z.leb_le c 127)) by lia; reflexivity|].
  rewrite (proj2 (Z.leb_gt c 127)) by lia.
  assert (D : forall k, 0 <= c / k mod 64 < 64) by (intros; apply Z.mod_pos_bound; lia).
  destruct (Z.ltb_spec c 2048).
  { rewrite (proj2 (Z.leb_le c 2047)) by lia. rewrite !six_div by lia. change (64 ^ 1) with 64. change (64 ^ 0) with 1.
    rewrite lor128 by apply D. assert (E : c / 64 mod 64 = c / 64) by (apply Z.mod_small; lia). rewrite E, lor192 by lia. reflexivity. }
  rewrite (proj2 (Z.leb_gt c 2047)) by lia.
  destruct (Z.ltb_spec c 65536).
  { rewrite (proj2 (Z.leb_le c 65535)) by lia. rewrite !six_div by lia. change (64 ^ 1) with 64. change (64 ^ 0) with 1. change (64 ^ 2) with 4096.
    rewrite !lor128 by apply D. assert (E : c / 4096 mod 64 = c / 4096) by (apply Z.mod_small; lia). rewrite E, lor224 by lia. reflexivity. }
  rewrite (proj2 (Z.leb_gt c 65535)) by lia. rewrite !six_div by lia. change (64 ^ 1) with 64. change (64 ^ 0) with 1. change (64 ^ 2) with 4096. change (64 ^ 3) with 262144.
  rewrite !lor128 by apply D. assert (E : c / 262144 mod 64 = c / 262144) by (apply Z.mod_small; lia). rewrite E, lor240 by lia. reflexivity.
Qed.
Lemma bytes_app a b : string_of_bytes (a ++ b) = (string_of_bytes a ++ string_of_bytes b)%string.
Proof. induction a as [|x a IH]; simpl; [reflexivity|]. now rewrite IH. Qed.
Lemma u8_all t : text t -> utf8_append_all t = utf8 t.
Proof.
  unfold text, utf8. induction t as [|c t IH]; intros H; [reflexivity|]. inversion H; subst.
  simpl. rewrite bytes_app, <- u8_bytes by assumption. now rewrite IH.
Qed.
Lemma u16_units c : scalar c -> u16_append c = utf16_units c.
Proof.
  intros S. unfold scalar in S. unfold u16_append, utf16_units.
  destruct (Z.ltb_spec c 65536); [rewrite (proj2 (Z.leb_le c 65535)) by lia; reflexivity|].
  rewrite (proj2 (Z.leb_gt c 65535)) by lia. rewrite Z.shiftr_div_pow2 by lia. change (2 ^ 10) with 1024.
  change 1023 with (Z.ones 10). rewrite Z.land_ones by lia. change (2 ^ 10) with 1024.
  rewrite lor_lead by lia. rewrite lor_trail by (apply Z.mod_pos_bound; lia). f_equal; [lia|]. f_equal. lia.
Qed.
Lemma u16_all t : text t -> flat_map u16_append t = utf16 t.
Proof.
  unfold text, utf16. induction t as [|c t IH]; intros H; [reflexivity|]. inversion H; subst.
  simpl. rewrite u16_units by assumption. now rewrite IH.
Qed.

(* ---- decoding ---- *)
Ltac btrue := match goal with |- context [?b] => match type of b with bool => first [replace b with true by (symmetry; lia) | replace b with false by (symmetry; lia)] end end.
Lemma tail_char b : 128 <= b < 192 -> is_tail (char_of b) = true.
Proof. intros H. unfold is_tail. rewrite byte_char by lia. lia. Qed.
Lemma decode8_char c s : scalar c -> utf8_decode (u8_append c ++ s) = opt_cons c (utf8_decode s).
Proof.
  intros S. unfold scalar in S. unfold u8_append.
  assert (D : forall k, 0 <= c / k mod 64 < 64) by (intros; apply Z.mod_pos_bound; lia).
  pose proof (D 1) as D1. pose proof (D 64) as D2. pose proof (D 4096) as D3. clear D.
  assert (E1 : c / 1 mod 64 = c mod 64) by (rewrite Z.div_1_r; reflexivity).
  destruct (Z.ltb_spec c 128).
  { cbn [append utf8_decode]. rewrite byte_char by lia. rewrite (proj2 (Z.ltb_lt c 128)) by lia. reflexivity. }
  destruct (Z.ltb_spec c 2048).
  { cbn [append utf8_decode]. rewrite !byte_char by lia. rewrite tail_char by lia. unfold low6. rewrite !byte_char by lia. cbn [negb].
    rewrite (proj2 (Z.ltb_ge (192 + c / 64) 128)) by lia. rewrite (proj2 (Z.ltb_ge (192 + c / 64) 194)) by lia. rewrite (proj2 (Z.ltb_lt (192 + c / 64) 224)) by lia.
    f_equal. rewrite E1. lia. }
  destruct (Z.ltb_spec c 65536).
  { cbn [append utf8_decode]. rewrite !byte_char by lia. rewrite !tail_char by lia. unfold low6. rewrite !byte_char by lia. cbn [negb].
    rewrite (proj2 (Z.ltb_ge (224 + c / 4096) 128)) by lia. rewrite (proj2 (Z.ltb_ge (224 + c / 4096) 194)) by lia. rewrite (proj2 (Z.ltb_ge (224 + c / 4096) 224)) by lia.
    rewrite (proj2 (Z.ltb_lt (224 + c / 4096) 240)) by lia.
    assert (V : (224 + c / 4096 - 224) * 4096 + (128 + c / 64 mod 64 - 128) * 64 + (128 + c / 1 mod 64 - 128) = c) by (rewrite E1; lia).
    cbv zeta. rewrite V. rewrite (proj2 (Z.ltb_ge c 2048)) by lia. cbn [orb]. replace ((55296 <=? c) && (c <? 57344)) with false by lia. reflexivity. }
  cbn [append utf8_decode]. rewrite !byte_char by lia. rewrite !tail_char by lia. unfold low6. rewrite !byte_char by lia. cbn [negb].
  rewrite (proj2 (Z.ltb_ge (240 + c / 262144) 128)) by lia. rewrite (proj2 (Z.ltb_ge (240 + c / 262144) 194)) by lia. rewrite (proj2 (Z.ltb_ge (240 + c / 262144) 224)) by lia.
  rewrite (proj2 (Z.ltb_ge (240 + c / 262144) 240)) by lia. replace (240 + c / 262144 >=? 245) with false by lia. cbn [orb].
  assert (V : (240 + c / 262144 - 240) * 262144 + (128 + c / 4096 mod 64 - 128) * 4096 + (128 + c / 64 mod 64 - 128) * 64 + (128 + c / 1 mod 64 - 128) = c) by (rewrite E1; lia).
  cbv zeta. rewrite V. replace (c <? 65536) with false by lia. replace (c >=? 1114112) with false by lia. reflexivity.
Qed.
Lemma decode8_all t : text t -> utf8_decode (utf8_append_all t) = Some t.
Proof. unfold text. induction t as [|c t IH]; intros H; [reflexivity|]. inversion H; subst. cbn [utf8_append_all fold_right]. rewrite decode8_char by assumption. fold (utf8_append_all t). now rewrite IH. Qed.

Lemma all_cons c t : utf8_append_all (c :: t) = (u8_append c ++ utf8_append_all t)%string.
Proof. reflexivity. Qed.
Lemma flat_cons c t : flat_map u16_append (c :: t) = u16_append c ++ flat_map u16_append t.
Proof. reflexivity. Qed.
Lemma opt_cons_some {A} (x : A) r l : opt_cons x r = Some l -> exists l', r = Some l' /\ l = x :: l'.
Proof. destruct r; simpl; intros H; inversion H; eauto. Qed.
Lemma tail_bounds c : is_tail c = true -> 0 <= low6 c < 64 /\ c = char_of (128 + low6 c).
Proof.
  unfold is_tail, low6. intros H. split; [lia|]. apply char_byte'. lia.
Qed.
Lemma decode8_inv : forall n s t, (String.length s <= n)%nat -> utf8_decode s = Some t -> text t /\ s = utf8_append_all t.
Proof.
  induction n as [|n IH]; intros s t L E.
  { destruct s; [|simpl in L; lia]. inversion E. split; [constructor|reflexivity]. }
  destruct s as [|a r]; [inversion E; split; [constructor|reflexivity]|]. cbn [utf8_decode] in E.
  pose proof (byte_range a) as Ba. simpl in L.
  destruct (Z.ltb_spec (byte_of a) 128).
  { apply opt_cons_some in E. destruct E as (t' & E & ->). apply IH in E; [|lia]. destruct E as [T ->].
    split; [constructor; [left; lia|assumption]|]. rewrite all_cons. unfold u8_append. rewrite (proj2 (Z.ltb_lt _ 128)) by lia. cbn [append]. now rewrite char_byte. }
  destruct r as [|b r1]; [discriminate|]. simpl in L.
  destruct (is_tail b) eqn:Tb; cbn [negb orb] in E; [|discriminate]. apply tail_bounds in Tb. destruct Tb as [Rb Eb].
  destruct (Z.ltb_spec (byte_of a) 194); [discriminate|].
  destruct (Z.ltb_spec (byte_of a) 224).
  { apply opt_cons_some in E. destruct E as (t' & E & ->). apply IH in E; [|lia]. destruct E as [T ->].
    set (v := (byte_of a - 192) * 64 + low6 b) in *.
    split; [constructor; [left; lia|assumption]|]. rewrite all_cons. unfold u8_append.
    replace (v <? 128) with false by lia. replace (v <? 2048) with true by lia. cbn [append]. rewrite Z.div_1_r.
    replace (192 + v / 64) with (byte_of a) by lia. replace (v mod 64) with (low6 b) by lia. now rewrite char_byte, <- Eb. }
  destruct r1 as [|c r2]; [discriminate|]. simpl in L.
  destruct (is_tail c) eqn:Tc; cbn [negb orb] in E; [|discriminate]. apply tail_bounds in Tc. destruct Tc as [Rc Ec].
  destruct (Z.ltb_spec (byte_of a) 240).
  { set (v := (byte_of a - 224) * 4096 + low6 b * 64 + low6 c) in *.
    destruct ((v <? 2048) || ((55296 <=? v) && (v <? 57344))) eqn:V; [discriminate|].
    apply opt_cons_some in E. destruct E as (t' & E & ->). apply IH in E; [|lia]. destruct E as [T ->].
    split; [constructor; [unfold scalar; lia|assumption]|]. rewrite all_cons. unfold u8_append.
    replace (v <? 128) with false by lia. replace (v <? 2048) with false by lia. replace (v <? 65536) with true by lia. cbn [append]. rewrite Z.div_1_r.
    replace (224 + v / 4096) with (byte_of a) by lia. replace (v mod 64) with (low6 c) by lia. replace (v / 64 mod 64) with (low6 b) by lia.
    now rewrite char_byte, <- Eb, <- Ec. }
  destruct r2 as [|d r3]; [discriminate|]. simpl in L.
  destruct (is_tail d) eqn:Td; cbn [negb orb] in E; [|discriminate]. apply tail_bounds in Td. destruct Td as [Rd Ed].
  destruct (byte_of a >=? 245) eqn:X; [discriminate|].
  set (v := (byte_of a - 240) * 262144 + low6 b * 4096 + low6 c * 64 + low6 d) in *.
  destruct ((v <? 65536) || (v >=? 1114112)) eqn:V; [discriminate|].
  apply opt_cons_some in E. destruct E as (t' & E & ->). apply IH in E; [|lia]. destruct E as [T ->].
  split; [constructor; [unfold scalar; lia|assumption]|]. rewrite all_cons. unfold u8_append.
  replace (v <? 128) with false by lia. replace (v <? 2048) with false by lia. replace (v <? 65536) with false by lia. cbn [append]. rewrite Z.div_1_r.
  replace (240 + v / 262144) with (byte_of a) by lia. replace (v mod 64) with (low6 d) by lia. replace (v / 64 mod 64) with (low6 c) by lia.
  replace (v / 4096 mod 64) with (low6 b) by lia. now rewrite char_byte, <- Eb, <- Ec, <- Ed.
Qed.
Lemma decode8 s t : utf8_decode s = Some t <-> text t /\ s = utf8 t.
Proof.
  split.
  - intros E. destruct (decode8_inv (String.length s) s t) as [T ->]; auto. split; auto. now apply u8_all.
  - intros [T ->]. rewrite <- u8_all by assumption. now apply decode8_all.
Qed.

Lemma decode16_char c u : scalar c -> utf16_decode (u16_append c ++ u) = opt_cons c (utf16_decode u).
Proof.
  intros S. unfold scalar in S. unfold u16_append. destruct (Z.ltb_spec c 65536); simpl app; cbn [utf16_decode].
  - replace ((55296 <=? c) && (c <? 57344)) with false by lia. reflexivity.
  - replace ((55296 <=? c / 1024 + 55232) && (c / 1024 + 55232 <? 57344)) with true by lia.
    replace (c / 1024 + 55232 <? 56320) with true by lia. replace ((56320 <=? c mod 1024 + 56320) && (c mod 1024 + 56320 <? 57344)) with true by lia.
    cbn [andb]. f_equal. lia.
Qed.
Lemma decode16_all t : text t -> utf16_decode (flat_map u16_append t) = Some t.
Proof. unfold text. induction t as [|c t IH]; intros H; [reflexivity|]. inversion H; subst. cbn [flat_map]. rewrite decode16_char by assumption. now rewrite IH. Qed.
Lemma decode16_inv : forall n u t, (List.length u <= n)%nat -> js_string u -> utf16_decode u = Some t -> text t /\ u = flat_map u16_append t.
Proof.
  induction n as [|n IH]; intros u t L J E.
  { destruct u; [|simpl in L; lia]. inversion E. split; [constructor|reflexivity]. }
  destruct u as [|a r]; [inversion E; split; [constructor|reflexivity]|]. cbn [utf16_decode] in E. simpl in L.
  inversion J as [|? ? Ua Jr]; subst. unfold unit16 in Ua.
  destruct ((55296 <=? a) && (a <? 57344)) eqn:S.
  - destruct r as [|b r1]; [discriminate|]. inversion Jr as [|? ? Ub Jr1]; subst. simpl in L.
    destruct ((a <? 56320) && ((56320 <=? b) && (b <? 57344))) eqn:P; [|discriminate].
    apply opt_cons_some in E. destruct E as (t' & E & ->). apply IH in E; [|lia|assumption]. destruct E as [T ->].
    set (v := a * 1024 + b - 56613888) in *. split; [constructor; [right; lia|assumption]|].
    rewrite flat_cons. unfold u16_append at 2. replace (v <? 65536) with false by lia. cbn [app]. f_equal; [lia|]. f_equal. lia.
  - apply opt_cons_some in E. destruct E as (t' & E & ->). apply IH in E; [|lia|assumption]. destruct E as [T ->].
    split; [constructor; [unfold scalar; lia|assumption]|]. rewrite flat_cons. unfold u16_append at 2. replace (a <? 65536) with true by lia. reflexivity.
Qed.
Lemma decode16 u t : js_string u -> utf16_decode u = Some t <-> text t /\ u = utf16 t.
Proof.
  intros J. split.
  - intros E. destruct (decode16_inv (List.length u) u t) as [T ->]; auto. split; auto. now apply u16_all.
  - intros [T ->]. rewrite <- u16_all by assumption. now apply decode16_all.
Qed.

(* ---- sizes ---- *)
Lemma slen_app a b : slen (a ++ b)%string = slen a + slen b.
Proof. unfold slen. induction a; simpl String.length in *; [reflexivity|]. cbn [append String.length] in *. lia. Qed.
Lemma slen_append c : scalar c -> 1 <= slen (u8_append c) <= 4 /\ slen (u8_append c) <= 3 * Z.of_nat (List.length (u16_append c)) /\
  1 <= Z.of_nat (List.length (u16_append c)) <= 2.
Proof.
  intros S. unfold scalar in S. unfold u8_append, u16_append, slen.
  destruct (Z.ltb_spec c 128), (Z.ltb_spec c 2048), (Z.ltb_spec c 65536); cbn [String.length List.length]; lia.
Qed.
Lemma sizes t : text t -> slen (utf8 t) <= 4 * Z.of_nat (List.length t) /\ slen (utf8 t) <= 3 * Z.of_nat (List.length (utf16 t)) /\
  Z.of_nat (List.length (utf16 t)) <= 2 * Z.of_nat (List.length t).
Proof.
  intros T. rewrite <- u8_all, <- u16_all by assumption. unfold text in T. induction T as [|c t S T IH]; [vm_compute; repeat split; intros X; discriminate X|].
  rewrite all_cons, flat_cons, slen_app, app_length. cbn [List.length]. pose proof (slen_append c S). lia.
Qed.

(* ---- C strings ---- *)
Lemma c_string_char c s : scalar c -> c_string (u8_append c ++ s) = if c =? 0 then EmptyString else (u8_append c ++ c_string s)%string.
Proof.
  intros S. unfold scalar in S. unfold u8_append.
  assert (D : forall k, 0 <= c / k mod 64 < 64) by (intros; apply Z.mod_pos_bound; lia).
  pose proof (D 1) as D1. pose proof (D 64) as D2. pose proof (D 4096) as D3. clear D.
  destruct (Z.ltb_spec c 128).
  { cbn [append c_string]. rewrite byte_char by lia. destruct (c =? 0); reflexivity. }
  rewrite (proj2 (Z.eqb_neq c 0)) by lia.
  assert (Q : forall x, 128 <= x < 256 -> (byte_of (char_of x) =? 0) = false) by (intros x Hx; rewrite byte_char by lia; lia).
  destruct (Z.ltb_spec c 2048); [|destruct (Z.ltb_spec c 65536)]; cbn [append c_string]; rewrite !Q by lia; reflexivity.
Qed.
Lemma c_string_text t : text t -> exists t', before_nul t t' /\ text t' /\ c_string (utf8_append_all t) = utf8_append_all t'.
Proof.
  unfold text. induction 1 as [|c t S T IH].
  - exists []. split; [left; split; auto|]. split; [constructor|reflexivity].
  - rewrite all_cons, c_string_char by assumption. destruct (Z.eqb_spec c 0) as [->|N].
    + exists []. split; [right; exists t; auto|]. split; [constructor|reflexivity].
    + destruct IH as (t' & B & T' & E). exists (c :: t'). split; [|split].
      * destruct B as [[-> B]|(r & -> & B)]; [left|right].
        { split; auto. intros [X|X]; auto. }
        { exists r. split; auto. intros [X|X]; auto. }
      * constructor; auto.
      * now rewrite E, all_cons.
Qed.
Lemma before_nul_unique t a b : before_nul t a -> before_nul t b -> a = b.
Proof.
  intros [[-> Na]|(r & E & Na)] [[-> Nb]|(r' & E' & Nb)]; auto.
  - exfalso. apply Na. rewrite E'. apply in_or_app. right. now left.
  - exfalso. apply Nb. rewrite E. apply in_or_app. right. now left.
  - subst t. clear - E' Na Nb. revert b E' Nb. induction a as [|x a IH]; intros [|y b] E Nb; simpl in *; auto.
    + inversion E; subst. tauto.
    + inversion E; subst. tauto.
    + inversion E; subst. f_equal. apply IH; tauto.
Qed.
Lemma before_plain t t' : plain t -> before_nul t t' -> t' = t.
Proof. intros [_ N] [[-> _]|(r & -> & _)]; auto. exfalso. apply N, in_or_app. right. now left. Qed.
Lemma c_string_no_nul s : no_nul s -> c_string s = s.
Proof.
  induction s as [|a s IH]; intros N; [reflexivity|]. cbn [c_string]. destruct (Z.eqb_spec (byte_of a) 0) as [E|_].
  - exfalso. apply (N 0%nat). simpl. f_equal. apply char_byte' in E. exact E.
  - f_equal. apply IH. intros i. exact (N (S i)).
Qed.
Lemma c_string_plain t : plain t -> c_string (utf8 t) = utf8 t.
Proof.
  intros P. pose proof (proj1 P) as T. rewrite <- u8_all by assumption. destruct (c_string_text t T) as (t' & B & _ & ->).
  f_equal. now apply before_plain.
Qed.

(* ---- the conversions ---- *)
Theorem to_js n s u : no_nul s -> utf8_to_v8_String n s = Ok u <->
  exists t, text t /\ s = utf8 t /\ u = utf16 t /\ Z.of_nat (List.length u) < 2 * n.
Proof.
  intros N. unfold utf8_to_v8_String, u_strFromUTF8. rewrite c_string_no_nul by assumption. split.
  - destruct (utf8_decode s) as [t|] eqn:D; [|discriminate]. apply decode8 in D. destruct D as [T ->].
    rewrite u16_all by assumption. destruct (Z.ltb_spec (Z.of_nat (List.length (utf16 t))) (n * 2)).
    + intros X. inversion X; subst. exists t. repeat split; auto. lia.
    + destruct (_ =? _); discriminate.
  - intros (t & T & -> & -> & L). rewrite (proj2 (decode8 (utf8 t) t)) by auto. rewrite u16_all by assumption.
    rewrite (proj2 (Z.ltb_lt _ _)) by lia. reflexivity.
Qed.
Theorem to_js_total n s : (exists u, utf8_to_v8_String n s = Ok u) \/ utf8_to_v8_String n s = Throw EUTF8_to_UTF16.
Proof. unfold utf8_to_v8_String. destruct (u_strFromUTF8 _ _); eauto. Qed.
Lemma js_firstn n u : js_string u -> js_string (firstn n u).
Proof. unfold js_string. rewrite !Forall_forall. intros H x I. apply H. rewrite <- (firstn_skipn n u). apply in_or_app. now left. Qed.
Lemma utf16_js t : text t -> js_string (utf16 t).
Proof.
  intros T. rewrite <- u16_all by assumption. unfold text in T. induction T as [|c t S T IH]; [constructor|]. rewrite flat_cons.
  apply Forall_app. split; [|assumption]. unfold scalar in S. unfold u16_append. destruct (Z.ltb_spec c 65536); repeat constructor; lia.
Qed.
Theorem from_js n u s : js_string u -> v8_String_to_utf8 n u = Ok s <->
  exists t t', text t /\ firstn (Z.to_nat (2 * n)) u = utf16 t /\ slen (utf8 t) < 4 * n /\ before_nul t t' /\ s = utf8 t'.
Proof.
  intros J. apply (js_firstn (Z.to_nat (2 * n))) in J. unfold v8_String_to_utf8, u_strToUTF8. rewrite (Z.mul_comm n 2), (Z.mul_comm n 4). split.
  - destruct (utf16_decode _) as [t|] eqn:D; [|discriminate]. apply decode16 in D; [|assumption]. destruct D as [T E].
    destruct (c_string_text t T) as (t' & B & T' & C). rewrite u8_all in * by assumption.
    destruct (Z.ltb_spec (slen (utf8 t)) (4 * n)).
    + rewrite C. intros X. inversion X; subst. exists t, t'. repeat split; auto. now apply u8_all.
    + destruct (_ =? _); discriminate.
  - intros (t & t' & T & E & L & B & ->). rewrite (proj2 (decode16 _ t J)) by auto.
    destruct (c_string_text t T) as (t2 & B2 & T' & C). pose proof (before_nul_unique _ _ _ B B2) as <-.
    rewrite !u8_all in * by assumption. rewrite (proj2 (Z.ltb_lt _ _)) by lia. now rewrite C.
Qed.
Theorem from_js_total n u : (exists s, v8_String_to_utf8 n u = Ok s) \/ v8_String_to_utf8 n u = Throw EUTF16_to_UTF8.
Proof. unfold v8_String_to_utf8. destruct (u_strToUTF8 _ _); eauto. Qed.
Lemma no_nul_plain t : plain t -> no_nul (utf8 t).
Proof.
  intros P. apply c_string_plain in P. revert P. generalize (utf8 t). clear t.
  induction s as [|a s IH]; intros E i; [destruct i; discriminate|]. cbn [c_string] in E.
  destruct (Z.eqb_spec (byte_of a) 0) as [|N]; [discriminate|]. inversion E as [E'].
  destruct i; simpl; [|rewrite E'; apply IH; assumption]. intros X. inversion X; subst. apply N. reflexivity.
Qed.
Theorem there_and_back n t : plain t -> Z.of_nat (List.length t) < n ->
  utf8_to_v8_String n (utf8 t) = Ok (utf16 t) /\ v8_String_to_utf8 n (utf16 t) = Ok (utf8 t).
Proof.
  intros P L. pose proof (proj1 P) as T. pose proof (sizes t T) as Z. split.
  - apply to_js; [now apply no_nul_plain|]. exists t. repeat split; auto. lia.
  - apply from_js; [now apply utf16_js|]. exists t, t. rewrite firstn_all2 by lia. repeat split; auto; try lia. left. split; auto. apply P.
Qed.
Theorem printed u s : js_string u -> 4 * (Z.of_nat (List.length u) + 1) <= int32_max -> v8_String_to_ostream u = Ok s <->
  exists t t', text t /\ u = utf16 t /\ before_nul t t' /\ s = utf8 t'.
Proof.
  intros J L. unfold v8_String_to_ostream. rewrite Z.gtb_ltb, (proj2 (Z.ltb_ge _ _)) by lia. unfold u_strToUTF8. split.
  - destruct (utf16_decode _) as [t|] eqn:D; [|discriminate]. apply decode16 in D; [|assumption]. destruct D as [T E].
    destruct (c_string_text t T) as (t' & B & T' & C). rewrite u8_all in * by assumption.
    destruct (Z.ltb_spec (slen (utf8 t)) (4 * (Z.of_nat (List.length u) + 1))).
    + rewrite C. intros X. inversion X; subst. exists t, t'. repeat split; auto. now apply u8_all.
    + destruct (_ =? _); discriminate.
  - intros (t & t' & T & -> & B & ->). rewrite (proj2 (decode16 _ t J)) by auto.
    destruct (c_string_text t T) as (t2 & B2 & T' & C). pose proof (before_nul_unique _ _ _ B B2) as <-.
    pose proof (sizes t T). rewrite !u8_all in * by assumption. rewrite (proj2 (Z.ltb_lt _ _)) by lia. now rewrite C.
Qed.
Theorem printed_total u : 4 * (Z.of_nat (List.length u) + 1) <= int32_max ->
  (exists s, v8_String_to_ostream u = Ok s) \/ v8_String_to_ostream u = Throw EUTF16_to_UTF8.
Proof. intros L. unfold v8_String_to_ostream. rewrite Z.gtb_ltb, (proj2 (Z.ltb_ge _ _)) by lia. destruct (u_strToUTF8 _ _); eauto. Qed.
Theorem encodings_injective t t' : text t -> text t' -> (utf8 t = utf8 t' -> t = t') /\ (utf16 t = utf16 t' -> t = t').
Proof.
  intros T T'. split; intros E.
  - pose proof (proj2 (decode8 (utf8 t) t) (conj T eq_refl)) as A. pose proof (proj2 (decode8 (utf8 t) t') (conj T' E)) as B. congruence.
  - pose proof (utf16_js t T) as J. pose proof (proj2 (decode16 (utf16 t) t J) (conj T eq_refl)) as A. pose proof (proj2 (decode16 (utf16 t) t' J) (conj T' E)) as B. congruence.
Qed.

(* ---- tags ---- *)
Lemma value_lookup kvs k : text k -> Forall (fun kv => text (fst kv)) kvs ->
  get_value_by_key (map (fun kv => mkTag (utf8 (fst kv)) (utf8 (snd kv))) kvs) (utf8 k) = option_map utf8 (first_value k kvs).
Proof.
  intros T. induction 1 as [|[k' v] r H _ IH]; [reflexivity|]. cbn [map get_value_by_key first_value fst snd tkey tvalue] in *.
  destruct (list_eq_dec Z.eq_dec k' k) as [->|N].
  - now rewrite String.eqb_refl.
  - destruct (String.eqb_spec (utf8 k') (utf8 k)) as [E|_]; [|assumption]. exfalso. apply N. exact (proj1 (encodings_injective k' k H T) E).
Qed.

Theorem tag_access kvs : Forall (fun kv => short_text (fst kv) /\ short_text (snd kv)) kvs ->
  let ts := map (fun kv => mkTag (utf8 (fst kv)) (utf8 (snd kv))) kvs in
  js_keys ts = Ok (map (fun kv => utf16 (fst kv)) kvs) /\
  forall k, short_text k -> js_tag ts (utf16 k) = Ok (option_map utf16 (first_value k kvs)).
Proof.
  intros F. split.
  - induction F as [|[k v] r [[Pk Lk] _] _ IH]; [reflexivity|]. cbn [map js_keys tkey fst snd] in *.
    rewrite (proj1 (there_and_back max_utf16_length k Pk ltac:(unfold max_utf16_length; lia))). cbn [obind]. now rewrite IH.
  - intros k [Pk Lk]. unfold js_tag. rewrite (proj2 (there_and_back max_utf16_length k Pk ltac:(unfold max_utf16_length; lia))). cbn [obind].
    rewrite value_lookup; [|apply Pk|].
    + assert (V : forall v, first_value k kvs = Some v -> short_text v).
      { clear - F. induction F as [|[k' v'] r [_ Hv] _ IH]; intros v E; [discriminate|]. cbn [first_value] in E. destruct (list_eq_dec Z.eq_dec k' k); [inversion E; subst; assumption|auto]. }
      destruct (first_value k kvs) as [v|]; [|reflexivity]. destruct (V v eq_refl) as [Pv Lv]. cbn [option_map].
      now rewrite (proj1 (there_and_back max_utf16_length v Pv ltac:(unfold max_utf16_length; lia))).
    + eapply Forall_impl; [|exact F]. intros [k' v] [[[T _] _] _]. exact T.
Qed.
Theorem user_role t : short_text t -> (forall a, o_user a = utf8 t -> js_user a = Ok (utf16 t)) /\ (forall m, m_role m = utf8 t -> js_role m = Ok (utf16 t)).
Proof.
  intros [P L]. split; intros x E; unfold js_user, js_role; rewrite E; apply (there_and_back max_utf16_length t P); unfold max_utf16_length; lia.
Qed.

(* ---- limits ---- *)
Lemma repeat_plain c n : scalar c -> c <> 0 -> plain (repeat c n).
Proof. intros S N. split; [|intros I; apply repeat_spec in I; congruence]. unfold text. induction n; constructor; auto. Qed.
Theorem maximum_fails : exists t, plain t /\ Z.of_nat (List.length t) = max_utf16_length /\
  utf8_to_v8_String max_utf16_length (utf8 t) = Throw EUTF8_to_UTF16.
Proof.
  exists (repeat 65536 512). split; [apply repeat_plain; [right; lia|lia]|]. split; [reflexivity|]. vm_compute. reflexivity.
Qed.
Theorem long_key : exists k k' v, plain k /\ plain k' /\ k <> k' /\
  js_tag [mkTag (utf8 k) (utf8 v)] (utf16 k') = Ok (Some (utf16 v)).
Proof.
  exists (repeat 97 1024), (repeat 97 1025), [98]. split; [apply repeat_plain; [left; lia|lia]|]. split; [apply repeat_plain; [left; lia|lia]|].
  split; [intros E; apply (f_equal (@List.length Z)) in E; rewrite !repeat_length in E; lia|]. vm_compute. reflexivity.
Qed.
Theorem unusable_key : exists t, plain t /\ js_keys [mkTag (utf8 t) ""] = Ok [utf16 t] /\
  js_tag [mkTag (utf8 t) ""] (utf16 t) = Throw EUTF16_to_UTF8.
Proof. exists (repeat 8364 700). split; [apply repeat_plain; [left; lia|lia]|]. split; vm_compute; reflexivity. Qed.
Theorem nul_cut : exists t t', text t /\ text t' /\ t <> t' /\ v8_String_to_ostream (utf16 t) = v8_String_to_ostream (utf16 t').
Proof.
  exists [97; 0; 98], [97]. split; [repeat first [apply Forall_nil | apply Forall_cons; [left; lia|]]|]. split; [repeat first [apply Forall_nil | apply Forall_cons; [left; lia|]]|]. split; [discriminate|vm_compute; reflexivity].
Qed.
