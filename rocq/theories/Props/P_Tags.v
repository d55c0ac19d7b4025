(** C13-C15: tag filters, filter_and_accumulate, tags to text. *)
From Verif Require Import Base.Prelude Model.Osm Model.Tags Spec.TagsSpec Proofs.TagsProofs.

(* ---- C13 ---- *)
Theorem C13_key_filter : forall d rs t,
  first_match rs (fun r => tkey t = snd r) fst d
    (kf_apply (fold_left (fun f r => kf_add (fst r) (snd r) f) rs (key_filter_new d)) t).
Proof. exact kf_first_match. Qed.
Print Assumptions C13_key_filter.
Theorem C13_key_value_filter : forall d rs t,
  first_match rs
    (fun r => let '(b, k, v) := r in tkey t = k /\ (v = None \/ v = Some ""%string \/ v = Some (tvalue t)))
    (fun r => fst (fst r)) d
    (kvf_apply (fold_left (fun f (r : bool * string * option string) => let '(b, k, v) := r in kvf_add b k v f)
                  rs (key_value_filter_new d)) t).
Proof. exact kvf_first_match. Qed.
Print Assumptions C13_key_value_filter.
Theorem C13_regex_filter : forall (X : Type) (m : string -> X -> bool) d rs t,
  first_match rs
    (fun r => let '(b, k, v) := r in m (tkey t) k = true /\ (forall x, v = Some x -> m (tvalue t) x = true))
    (fun r => fst (fst r)) d
    (rf_apply X m (fold_left (fun f (r : bool * X * option X) => let '(b, k, v) := r in rf_add X b k v f)
                  rs (regex_filter_new X d)) t).
Proof. exact @rf_first_match. Qed.
Print Assumptions C13_regex_filter.
Example C13_ex :
  let f := kvf_add true "highway" None (kvf_add false "highway" (Some "track") (key_value_filter_new false))%string in
  kvf_apply f (mkTag "highway" "track") = false /\ kvf_apply f (mkTag "highway" "road") = true
  /\ kvf_apply f (mkTag "name" "road") = false.
Proof. vm_compute; auto. Qed.

(* ---- C14 ---- *)
Theorem C14_filter_and_accumulate : forall (E A : Type) (p : E -> bool) (op : A -> E -> A) l init,
  filter_and_accumulate p op l init = Some (fold_left op (filter p l) init).
Proof. exact @filter_and_accumulate_spec. Qed.
Print Assumptions C14_filter_and_accumulate.
Example C14_ex : filter_and_accumulate Z.even (fun a x => 10 * a + x) [1; 2; 3; 4; 6; 7] 0 = Some 246.
Proof. reflexivity. Qed.

(* ---- C15 ---- *)
Theorem C15_hstore_parses_back : forall ts, Forall c_tag ts ->
  hstore_parse (tags_to_string tts_hstore ts) = Some (map pair_of ts).
Proof. exact hstore_roundtrip. Qed.
Print Assumptions C15_hstore_parses_back.
Theorem C15_hstore_injective : forall t1 t2, Forall c_tag t1 -> Forall c_tag t2 ->
  tags_to_string tts_hstore t1 = tags_to_string tts_hstore t2 -> t1 = t2.
Proof. exact hstore_injective. Qed.
Print Assumptions C15_hstore_injective.
Theorem C15_hstore_of_filtered_tags : forall ts keep, Forall c_tag ts ->
  exists text, filter_and_accumulate keep (tts_op tts_hstore) ts ""%string = Some text /\
    hstore_parse text = Some (map pair_of (filter keep ts)).
Proof. exact hstore_filtered. Qed.
Print Assumptions C15_hstore_of_filtered_tags.
(** Keys and values with NUL bytes are cut there (finding). *)
Theorem C15_nul : forall ts, hstore_parse (tags_to_string tts_hstore ts) = Some (map (fun t => (cut_nul (tkey t), cut_nul (tvalue t))) ts).
Proof. exact hstore_cut. Qed.
Print Assumptions C15_nul.
Theorem C15_nul_refuted : exists t1 t2, t1 <> t2 /\ tags_to_string tts_hstore [t1] = tags_to_string tts_hstore [t2].
Proof. exists (mkTag "a" (String "b" (String zero "c"))), (mkTag "a" "b"). split; [discriminate|reflexivity]. Qed.
Print Assumptions C15_nul_refuted.
(** The key=value text is not unambiguous. *)
Theorem C15_key_equals_value_refuted : exists t1 t2, Forall c_tag t1 /\ Forall c_tag t2 /\ t1 <> t2 /\
  tags_to_string (tts_key_equals_value ",") t1 = tags_to_string (tts_key_equals_value ",") t2.
Proof. exact key_value_text_ambiguous. Qed.
Print Assumptions C15_key_equals_value_refuted.
Definition C15_tags : list tag :=
  [mkTag "na\me" (String "034" "x=>,"); mkTag "" ","]%string.
Example C15_ex : Forall c_tag C15_tags /\
  hstore_parse (tags_to_string tts_hstore C15_tags) = Some (map pair_of C15_tags).
Proof. split; [repeat constructor; discriminate|reflexivity]. Qed.
