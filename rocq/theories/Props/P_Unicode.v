(** C60: texts given to and taken from Javascript. *)
From Verif Require Import Base.Prelude Model.Osm Model.Unicode Spec.UnicodeSpec Proofs.UnicodeProofs.

(** "Straße 東京" and a character outside of the basic plane *)
Definition street : list Z := [83; 116; 114; 97; 223; 101; 32; 26481; 20140; 128652].
Lemma street_text : text street.
Proof. unfold text, street. repeat first [apply Forall_nil | apply Forall_cons; [left; lia|] | apply Forall_cons; [right; lia|]]. Qed.
Lemma street_plain : plain street.
Proof. split; [exact street_text|]. unfold street. cbn [In]. lia. Qed.

(** A C string becomes a Javascript string exactly if it is the UTF-8 form of a text with less than 2n
    units in UTF-16, and then it becomes the UTF-16 form of that text. *)
Theorem C60_to_js : forall n s u, no_nul s -> utf8_to_v8_String n s = Ok u <->
  exists t, text t /\ s = utf8 t /\ u = utf16 t /\ Z.of_nat (List.length u) < 2 * n.
Proof. exact to_js. Qed.
Print Assumptions C60_to_js.
(** All others are refused with an exception. *)
Theorem C60_to_js_total : forall n s, (exists u, utf8_to_v8_String n s = Ok u) \/ utf8_to_v8_String n s = Throw EUTF8_to_UTF16.
Proof. exact to_js_total. Qed.
Print Assumptions C60_to_js_total.
(** The other direction: of the first 2n units, what comes before the first U+0000. *)
Theorem C60_from_js : forall n u s, js_string u -> v8_String_to_utf8 n u = Ok s <->
  exists t t', text t /\ firstn (Z.to_nat (2 * n)) u = utf16 t /\ slen (utf8 t) < 4 * n /\ before_nul t t' /\ s = utf8 t'.
Proof. exact from_js. Qed.
Print Assumptions C60_from_js.
Theorem C60_from_js_total : forall n u, (exists s, v8_String_to_utf8 n u = Ok s) \/ v8_String_to_utf8 n u = Throw EUTF16_to_UTF8.
Proof. exact from_js_total. Qed.
Print Assumptions C60_from_js_total.
(** Texts of less than n characters survive both. *)
Theorem C60_roundtrip : forall n t, plain t -> Z.of_nat (List.length t) < n ->
  utf8_to_v8_String n (utf8 t) = Ok (utf16 t) /\ v8_String_to_utf8 n (utf16 t) = Ok (utf8 t).
Proof. exact there_and_back. Qed.
Print Assumptions C60_roundtrip.
(** Printing a Javascript string writes it in UTF-8. *)
Theorem C60_print : forall u s, js_string u -> 4 * (Z.of_nat (List.length u) + 1) <= int32_max -> v8_String_to_ostream u = Ok s <->
  exists t t', text t /\ u = utf16 t /\ before_nul t t' /\ s = utf8 t'.
Proof. exact printed. Qed.
Print Assumptions C60_print.
Theorem C60_print_total : forall u, 4 * (Z.of_nat (List.length u) + 1) <= int32_max ->
  (exists s, v8_String_to_ostream u = Ok s) \/ v8_String_to_ostream u = Throw EUTF16_to_UTF8.
Proof. exact printed_total. Qed.
Print Assumptions C60_print_total.
(** Both forms determine the text. *)
Theorem C60_injective : forall t t', text t -> text t' -> (utf8 t = utf8 t' -> t = t') /\ (utf16 t = utf16 t' -> t = t').
Proof. exact encodings_injective. Qed.
Print Assumptions C60_injective.
(** Tags: the keys in order, and by key the first value or undefined. *)
Theorem C60_tags : forall kvs, Forall (fun kv => short_text (fst kv) /\ short_text (snd kv)) kvs ->
  let ts := map (fun kv => mkTag (utf8 (fst kv)) (utf8 (snd kv))) kvs in
  js_keys ts = Ok (map (fun kv => utf16 (fst kv)) kvs) /\
  forall k, short_text k -> js_tag ts (utf16 k) = Ok (option_map utf16 (first_value k kvs)).
Proof. exact tag_access. Qed.
Print Assumptions C60_tags.
Theorem C60_user_role : forall t, short_text t ->
  (forall a, o_user a = utf8 t -> js_user a = Ok (utf16 t)) /\ (forall m, m_role m = utf8 t -> js_role m = Ok (utf16 t)).
Proof. exact user_role. Qed.
Print Assumptions C60_user_role.

(** A text of the maximum length itself is refused, though the documentation of the constant allows it. *)
Theorem C60_maximum_refuted : exists t, plain t /\ Z.of_nat (List.length t) = max_utf16_length /\
  utf8_to_v8_String max_utf16_length (utf8 t) = Throw EUTF8_to_UTF16.
Proof. exact maximum_fails. Qed.
Print Assumptions C60_maximum_refuted.
(** A long key finds the tag of another key. *)
Theorem C60_long_key_refuted : exists k k' v, plain k /\ plain k' /\ k <> k' /\
  js_tag [mkTag (utf8 k) (utf8 v)] (utf16 k') = Ok (Some (utf16 v)).
Proof. exact long_key. Qed.
Print Assumptions C60_long_key_refuted.
(** A key given out by the enumeration cannot always be used to look it up. *)
Theorem C60_unusable_key_refuted : exists t, plain t /\ js_keys [mkTag (utf8 t) ""] = Ok [utf16 t] /\
  js_tag [mkTag (utf8 t) ""] (utf16 t) = Throw EUTF16_to_UTF8.
Proof. exact unusable_key. Qed.
Print Assumptions C60_unusable_key_refuted.
(** Printing stops at U+0000. *)
Theorem C60_nul_refuted : exists t t', text t /\ text t' /\ t <> t' /\ v8_String_to_ostream (utf16 t) = v8_String_to_ostream (utf16 t').
Proof. exact nul_cut. Qed.
Print Assumptions C60_nul_refuted.

Example C60_example_hyps : short_text street /\ js_string (utf16 street).
Proof.
  split; [split; [exact street_plain|vm_compute; lia]|].
  unfold js_string. vm_compute utf16. repeat first [apply Forall_nil | apply Forall_cons; [unfold unit16; lia|]].
Qed.
Example C60_example :
  utf16 street = [83; 116; 114; 97; 223; 101; 32; 26481; 20140; 55357; 56972] /\
  slen (utf8 street) = 18 /\
  utf8_to_v8_String 512 (utf8 street) = Ok (utf16 street) /\
  v8_String_to_ostream (utf16 street) = Ok (utf8 street) /\
  js_tag [mkTag "name" (utf8 street); mkTag "name" "x"] [110; 97; 109; 101] = Ok (Some (utf16 street)) /\
  (* a lone surrogate and an overlong form are refused *)
  v8_String_to_ostream [97; 55357] = Throw EUTF16_to_UTF8 /\
  utf8_to_v8_String 512 (String "192" (String "128" EmptyString)) = Throw EUTF8_to_UTF16.
Proof. vm_compute. repeat split. Qed.
