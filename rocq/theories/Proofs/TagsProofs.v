From Verif Require Import Base.Prelude Model.Osm Model.Tags Spec.TagsSpec.

Lemma first_match_cons_yes {R} (r : R) rest (M : R -> Prop) (a : R -> bool) d : M r -> first_match (r :: rest) M a d (a r).
Proof. intros H. left. exists [], r, rest. repeat split; auto; intros q []. Qed.
Lemma first_match_cons_no {R} (r : R) rest (M : R -> Prop) a d b : ~ M r -> first_match rest M a d b -> first_match (r :: rest) M a d b.
Proof.
  intros H [(p & x & q & E & Hm & Hp & Hb)|[Hn Hb]].
  - left. exists (r :: p), x, q. subst. repeat split; auto. intros y [<-|Hy]; auto.
  - right. split; [|exact Hb]. intros y [<-|Hy]; auto.
Qed.

Definition kf_build (d : bool) (rs : list (bool * string)) : key_filter :=
  fold_left (fun f r => kf_add (fst r) (snd r) f) rs (key_filter_new d).
Lemma kf_build_rules rs : forall f,
  fold_left (fun f r => kf_add (fst r) (snd r) f) rs f =
  mkKeyFilter (kf_rules f ++ map (fun r => mkKF (fst r) (snd r)) rs) (kf_default f).
Proof.
  induction rs as [|r rs IH]; intros f; cbn; [rewrite app_nil_r; destruct f; reflexivity|].
  rewrite IH. unfold kf_add. cbn. rewrite <- app_assoc. reflexivity.
Qed.
Lemma kf_first_match d rs t :
  first_match rs (fun r => tkey t = snd r) fst d
    (kf_apply (fold_left (fun f r => kf_add (fst r) (snd r) f) rs (key_filter_new d)) t).
Proof.
  rewrite kf_build_rules. unfold kf_apply. cbn.
  induction rs as [|r rs IH]; cbn; [right; split; [intros q []|reflexivity]|].
  destruct (String.eqb_spec (tkey t) (snd r)).
  - apply (first_match_cons_yes r rs (fun r => tkey t = snd r) fst d). exact e.
  - apply first_match_cons_no; assumption.
Qed.

Lemma kvf_build_rules rs : forall f,
  fold_left (fun f (r : bool * string * option string) => let '(b, k, v) := r in kvf_add b k v f) rs f =
  mkKeyValueFilter (kvf_rules f ++ map (fun r : bool * string * option string => let '(b, k, v) := r in
     mkKVF b k (match v with Some v => v | None => ""%string end)) rs) (kvf_default f).
Proof.
  induction rs as [|[[b k] v] rs IH]; intros f; cbn; [rewrite app_nil_r; destruct f; reflexivity|].
  rewrite IH. unfold kvf_add. cbn. rewrite <- app_assoc. reflexivity.
Qed.
Lemma kvf_first_match d rs t :
  first_match rs (fun r => let '(b, k, v) := r in tkey t = k /\ (v = None \/ v = Some ""%string \/ v = Some (tvalue t)))
    (fun r => fst (fst r)) d
    (kvf_apply (fold_left (fun f (r : bool * string * option string) => let '(b, k, v) := r in kvf_add b k v f) rs (key_value_filter_new d)) t).
Proof.
  rewrite kvf_build_rules. unfold kvf_apply. cbn.
  induction rs as [|[[b k] v] rs IH]; cbn [map kvf_scan kvf_key kvf_value kvf_result].
  - right; split; [intros q []|reflexivity].
  - match goal with |- context [if ?c then _ else _] => destruct c eqn:E end.
    + apply andb_true_iff in E as [E1 E2]. apply String.eqb_eq in E1.
      match goal with |- first_match (?r :: ?rest) ?M ?a ?d _ => apply (first_match_cons_yes r rest M a d) end.
      split; [exact E1|]. apply orb_true_iff in E2 as [E2|E2]; apply String.eqb_eq in E2; destruct v; subst; auto.
    + apply first_match_cons_no; [|exact IH]. intros [H1 H2].
      rewrite (proj2 (String.eqb_eq _ _) H1) in E. cbn in E. apply orb_false_iff in E as [E1 E2].
      apply String.eqb_neq in E1, E2. destruct v as [v|]; destruct H2 as [H2|[H2|H2]]; congruence.
Qed.

Lemma rf_build_rules {X} rs : forall f : regex_filter X,
  fold_left (fun f (r : bool * X * option X) => let '(b, k, v) := r in rf_add X b k v f) rs f =
  mkRegexFilter X (rf_rules X f ++ map (fun r : bool * X * option X => let '(b, k, v) := r in mkRF X b k v) rs) (rf_default X f).
Proof.
  induction rs as [|[[b k] v] rs IH]; intros f; cbn; [rewrite app_nil_r; destruct f; reflexivity|].
  rewrite IH. unfold rf_add. cbn. rewrite <- app_assoc. reflexivity.
Qed.
Lemma rf_first_match {X} (m : string -> X -> bool) d rs t :
  first_match rs (fun r => let '(b, k, v) := r in m (tkey t) k = true /\ (forall x, v = Some x -> m (tvalue t) x = true))
    (fun r => fst (fst r)) d
    (rf_apply X m (fold_left (fun f (r : bool * X * option X) => let '(b, k, v) := r in rf_add X b k v f) rs (regex_filter_new X d)) t).
Proof.
  rewrite rf_build_rules. unfold rf_apply. cbn.
  induction rs as [|[[b k] v] rs IH]; cbn [map rf_scan rf_key rf_value rf_result].
  - right; split; [intros q []|reflexivity].
  - match goal with |- context [if ?c then _ else _] => destruct c eqn:E end.
    + apply andb_true_iff in E as [E1 E2].
      match goal with |- first_match (?r :: ?rest) ?M ?a ?d _ => apply (first_match_cons_yes r rest M a d) end.
      split; [exact E1|]. intros x ->. exact E2.
    + apply first_match_cons_no; [|exact IH]. intros [H1 H2]. rewrite H1 in E. destruct v; [|discriminate].
      rewrite (H2 _ eq_refl) in E. discriminate.
Qed.

(* ---- filter_and_accumulate ---- *)
Lemma fi_satisfy_length {E} (p : E -> bool) l : (List.length (fi_satisfy p l) <= List.length l)%nat.
Proof. induction l as [|x l IH]; cbn; [lia|]. destruct (p x); cbn; lia. Qed.
Lemma fi_filter {E} (p : E -> bool) l : filter p (fi_satisfy p l) = filter p l.
Proof. induction l as [|x l IH]; cbn; [reflexivity|]. destruct (p x) eqn:P; cbn; rewrite ?P; [reflexivity|exact IH]. Qed.
Lemma fi_satisfy_head {E} (p : E -> bool) l x r : fi_satisfy p l = x :: r -> p x = true.
Proof. induction l as [|y l IH]; cbn; [discriminate|]. destruct (p y) eqn:P; [intros [= <- <-]; exact P|exact IH]. Qed.
Lemma fi_accumulate_spec {E A} (p : E -> bool) (op : A -> E -> A) fuel : forall l acc,
  (List.length (fi_satisfy p l) <= fuel)%nat ->
  fi_accumulate p op fuel (fi_satisfy p l) acc = Some (fold_left op (filter p l) acc).
Proof.
  induction fuel as [|fuel IH]; intros l acc H; rewrite <- (fi_filter p l);
    destruct (fi_satisfy p l) as [|x r] eqn:S; cbn [List.length] in H; try lia; try reflexivity.
  cbn. rewrite (fi_satisfy_head p l x r S). cbn. apply IH.
  pose proof (fi_satisfy_length p r). lia.
Qed.
Lemma filter_and_accumulate_spec {E A} (p : E -> bool) (op : A -> E -> A) l init :
  filter_and_accumulate p op l init = Some (fold_left op (filter p l) init).
Proof. apply fi_accumulate_spec. apply fi_satisfy_length. Qed.

(* ---- hstore ---- *)
Lemma c_str_no_nul s : no_nul s -> c_str s = s.
Proof.
  induction s as [|c s IH]; cbn; [reflexivity|]. intros [H1 H2].
  destruct (Ascii.eqb_spec c zero); [congruence|]. rewrite IH by exact H2. reflexivity.
Qed.
Definition esc_chars : string := String "092" dq.
Lemma has_char_esc c : has_char c esc_chars = (Ascii.eqb c backslash || Ascii.eqb c quote)%bool.
Proof. cbn. unfold backslash, quote. destruct (Ascii.eqb c "092"), (Ascii.eqb c "034"); reflexivity. Qed.

Lemma parse_key s : forall rest k done,
  hs_parse (escaped esc_chars s ++ dq ++ rest) (HKey k) done = hs_parse rest (HEq (rev (list_ascii_of_string s) ++ k)) done.
Proof.
  induction s as [|c s IH]; intros rest k done; cbn [escaped list_ascii_of_string rev String.append].
  - reflexivity.
  - rewrite has_char_esc. rewrite <- app_assoc. cbn [app].
    destruct (Ascii.eqb_spec c backslash); [|destruct (Ascii.eqb_spec c quote)]; cbn [orb].
    + cbn [String.append hs_parse]. change (Ascii.eqb "092" quote) with false. change (Ascii.eqb "092" backslash) with true. cbn iota. apply IH.
    + cbn [String.append hs_parse]. change (Ascii.eqb "092" quote) with false. change (Ascii.eqb "092" backslash) with true. cbn iota. apply IH.
    + cbn [String.append hs_parse]. destruct (Ascii.eqb_spec c quote); [congruence|]. destruct (Ascii.eqb_spec c backslash); [congruence|]. apply IH.
Qed.
Lemma parse_val s : forall rest k v done,
  hs_parse (escaped esc_chars s ++ dq ++ rest) (HVal k v) done = hs_parse rest HEnd ((k, rev (list_ascii_of_string s) ++ v) :: done).
Proof.
  induction s as [|c s IH]; intros rest k v done; cbn [escaped list_ascii_of_string rev String.append].
  - reflexivity.
  - rewrite has_char_esc. rewrite <- app_assoc. cbn [app].
    destruct (Ascii.eqb_spec c backslash); [|destruct (Ascii.eqb_spec c quote)]; cbn [orb].
    + cbn [String.append hs_parse]. change (Ascii.eqb "092" quote) with false. change (Ascii.eqb "092" backslash) with true. cbn iota. apply IH.
    + cbn [String.append hs_parse]. change (Ascii.eqb "092" quote) with false. change (Ascii.eqb "092" backslash) with true. cbn iota. apply IH.
    + cbn [String.append hs_parse]. destruct (Ascii.eqb_spec c quote); [congruence|]. destruct (Ascii.eqb_spec c backslash); [congruence|]. apply IH.
Qed.

Lemma append_assoc (a b c : string) : ((a ++ b) ++ c = a ++ (b ++ c))%string.
Proof. induction a; cbn; congruence. Qed.
Lemma append_nil_r (a : string) : (a ++ "" = a)%string.
Proof. induction a; cbn; congruence. Qed.

Definition hs_one (t : tag) : string :=
  (dq ++ escaped esc_chars (tkey t) ++ dq ++ "=>" ++ dq ++ escaped esc_chars (tvalue t) ++ dq)%string.
Lemma parse_one t rest st done : st = HStart \/ st = HPair ->
  hs_parse (hs_one t ++ rest) st done =
  hs_parse rest HEnd ((rev (list_ascii_of_string (tkey t)), rev (list_ascii_of_string (tvalue t))) :: done).
Proof.
  intros H. unfold hs_one. rewrite !append_assoc.
  change (dq ++ ?x)%string with (String quote x) at 1.
  transitivity (hs_parse (escaped esc_chars (tkey t) ++ dq ++ "=>" ++ dq ++ escaped esc_chars (tvalue t) ++ dq ++ rest) (HKey []) done).
  - destruct H as [-> | ->]; reflexivity.
  - rewrite parse_key. rewrite app_nil_r. cbn [String.append].
    change (hs_parse (String "=" (String ">" ?x)) (HEq ?k) done) with (hs_parse x (HVal0 k) done).
    change (dq ++ ?x)%string with (String quote x) at 1.
    change (hs_parse (String quote ?x) (HVal0 ?k) done) with (hs_parse x (HVal k []) done).
    rewrite parse_val. rewrite app_nil_r. reflexivity.
Qed.

Fixpoint hs_rest (ts : list tag) : string :=
  match ts with [] => "" | t :: r => String "," (hs_one t ++ hs_rest r) end%string.
Lemma hs_one_ne t x : (x ++ hs_one t)%string <> ""%string.
Proof. destruct x; cbn; discriminate. Qed.
Lemma tts_fold ts : forall out, out <> ""%string -> Forall c_tag ts ->
  fold_left (tts_op tts_hstore) ts out = (out ++ hs_rest ts)%string.
Proof.
  induction ts as [|t ts IH]; intros out Hout HF; cbn [fold_left hs_rest]; [symmetry; apply append_nil_r|].
  inversion HF as [|? ? [H1 H2] HF']; subst.
  assert (E : tts_op tts_hstore out t = (out ++ String "," (hs_one t))%string).
  { unfold tts_op. destruct (String.eqb_spec out ""); [congruence|]. rewrite !c_str_no_nul by assumption.
    unfold hs_one. cbn [tts_join tts_prefix tts_infix tts_suffix tts_escape tts_hstore].
    rewrite !append_assoc. reflexivity. }
  rewrite E. rewrite IH; [|destruct out; discriminate|exact HF'].
  rewrite append_assoc. reflexivity.
Qed.
Lemma tags_to_string_hstore t ts : Forall c_tag (t :: ts) ->
  tags_to_string tts_hstore (t :: ts) = (hs_one t ++ hs_rest ts)%string.
Proof.
  intros HF. inversion HF as [|? ? [H1 H2] HF']; subst. unfold tags_to_string. cbn [fold_left].
  assert (E : tts_op tts_hstore "" t = hs_one t).
  { unfold tts_op. cbn [String.eqb]. rewrite !c_str_no_nul by assumption.
    unfold hs_one. cbn [tts_join tts_prefix tts_infix tts_suffix tts_escape tts_hstore].
    rewrite !append_assoc. reflexivity. }
  rewrite E. apply tts_fold; [|exact HF']. apply (hs_one_ne t ""%string).
Qed.
Lemma parse_rest ts : forall done,
  hs_parse (hs_rest ts) HEnd done =
  Some (rev done ++ map (fun t => (rev (list_ascii_of_string (tkey t)), rev (list_ascii_of_string (tvalue t)))) ts).
Proof.
  induction ts as [|t ts IH]; intros done; cbn [hs_rest].
  - cbn. rewrite app_nil_r. reflexivity.
  - change (hs_parse (String "," ?x) HEnd done) with (hs_parse x HPair done).
    rewrite parse_one by auto. rewrite IH. cbn [rev map]. rewrite <- app_assoc. reflexivity.
Qed.
Lemma text_of_rev s : text_of (rev (list_ascii_of_string s)) = s.
Proof. unfold text_of. rewrite rev_involutive. apply string_of_list_ascii_of_string. Qed.
Lemma hstore_roundtrip ts : Forall c_tag ts ->
  hstore_parse (tags_to_string tts_hstore ts) = Some (map pair_of ts).
Proof.
  intros HF. destruct ts as [|t ts]; [reflexivity|]. rewrite tags_to_string_hstore by exact HF.
  unfold hstore_parse. rewrite parse_one by auto. rewrite parse_rest.
  change (rev [?x] ++ map ?f ts) with (x :: map f ts).
  f_equal. cbn [map]. f_equal.
  - unfold pair_of. cbn [fst snd]. rewrite !text_of_rev. reflexivity.
  - rewrite map_map. apply map_ext. intros x. unfold pair_of. cbn [fst snd]. rewrite !text_of_rev. reflexivity.
Qed.
Lemma pair_of_inj l1 : forall l2, map pair_of l1 = map pair_of l2 -> l1 = l2.
Proof.
  induction l1 as [|[k v] l1 IH]; intros [|[k2 v2] l2]; cbn; try discriminate; [reflexivity|].
  intros [= -> -> H]. f_equal. auto.
Qed.
Lemma hstore_injective t1 t2 : Forall c_tag t1 -> Forall c_tag t2 ->
  tags_to_string tts_hstore t1 = tags_to_string tts_hstore t2 -> t1 = t2.
Proof.
  intros H1 H2 E. apply hstore_roundtrip in H1, H2. rewrite E, H2 in H1. injection H1 as H1.
  symmetry. apply pair_of_inj. exact H1.
Qed.
Lemma key_value_text_ambiguous : exists t1 t2, Forall c_tag t1 /\ Forall c_tag t2 /\ t1 <> t2 /\
  tags_to_string (tts_key_equals_value ",") t1 = tags_to_string (tts_key_equals_value ",") t2.
Proof.
  exists [mkTag "a" "b,c=d"], [mkTag "a" "b"; mkTag "c" "d"].
  split; [|split; [|split]]; [| |discriminate|reflexivity].
  - repeat constructor; discriminate.
  - repeat constructor; discriminate.
Qed.
Lemma hstore_filtered ts keep : Forall c_tag ts ->
  exists text, filter_and_accumulate keep (tts_op tts_hstore) ts ""%string = Some text /\
    hstore_parse text = Some (map pair_of (filter keep ts)).
Proof.
  intros HF. eexists; split; [apply filter_and_accumulate_spec|]. apply hstore_roundtrip.
  apply Forall_forall. intros t Ht. apply filter_In in Ht as [Ht _]. rewrite Forall_forall in HF. auto.
Qed.
Lemma c_str_cut s : c_str s = cut_nul s.
Proof. induction s as [|c r IH]; cbn; [reflexivity|]. now rewrite IH. Qed.
Lemma cut_nul_ok s : no_nul (cut_nul s) /\ cut_nul (cut_nul s) = cut_nul s.
Proof.
  induction s as [|c r [IH1 IH2]]; cbn; [now split|]. destruct (Ascii.eqb c zero) eqn:E; [now split|]. cbn. rewrite E, IH2.
  split; [|reflexivity]. split; [|exact IH1]. apply Ascii.eqb_neq. exact E.
Qed.
Lemma hstore_cut ts : hstore_parse (tags_to_string tts_hstore ts) = Some (map (fun t => (cut_nul (tkey t), cut_nul (tvalue t))) ts).
Proof.
  set (cut := fun t => mkTag (cut_nul (tkey t)) (cut_nul (tvalue t))).
  assert (H : forall l acc, fold_left (tts_op tts_hstore) (map cut l) acc = fold_left (tts_op tts_hstore) l acc).
  { induction l as [|t l IH]; intros acc; [reflexivity|]. cbn [map fold_left]. rewrite IH. f_equal. unfold tts_op, cut. cbn [tkey tvalue].
    now rewrite !c_str_cut, !(proj2 (cut_nul_ok _)). }
  unfold tags_to_string. rewrite <- H. fold (tags_to_string tts_hstore (map cut ts)). rewrite hstore_roundtrip; [now rewrite map_map|].
  apply Forall_forall. intros t Ht. apply in_map_iff in Ht as (x & <- & _). split; apply cut_nul_ok.
Qed.
