(** Proofs about the scripts that count tags and write tables. *)
From Verif Require Import Base.Prelude Base.Decimal Model.Osm Model.Handler Model.Unicode Model.Js Model.Osmjs Model.Osm2shape Model.Scripts
  Spec.UnicodeSpec Spec.JsSpec Spec.Osm2shapeSpec Spec.ScriptsSpec Proofs.UnicodeProofs Proofs.JsOutProofs Proofs.Osm2shapeProofs Proofs.Osm2shape2Proofs.
Local Open Scope Z_scope.

(* ---- numbers as texts ---- *)
Definition low (c : Z) : Prop := c = 45 \/ 48 <= c <= 57.
Lemma digit_low d : 0 <= d < 10 -> low (Z.of_N (N_of_ascii (digit_char d))).
Proof. intros H. right. unfold digit_char. rewrite N_ascii_embedding by lia. lia. Qed.
Lemma ascii_app a b : ascii_text (a ++ b) = ascii_text a ++ ascii_text b.
Proof. unfold ascii_text. induction a as [|c a IH]; [reflexivity|]. cbn. now f_equal. Qed.
Lemma digits_text f : forall n, 0 <= n -> Forall low (ascii_text (print_digits f n)) /\ (List.length (ascii_text (print_digits f n)) <= S f)%nat.
Proof.
  induction f as [|f IH]; intros n H; cbn [print_digits].
  - split; [|cbn; lia]. unfold ascii_text. cbn [list_ascii_of_string map]. constructor; [|constructor]. apply digit_low, Z.mod_pos_bound. lia.
  - destruct (Z.ltb_spec n 10).
    + split; [|cbn; lia]. unfold ascii_text. cbn [list_ascii_of_string map]. constructor; [|constructor]. apply digit_low. lia.
    + destruct (IH (n / 10)) as [I1 I2]; [apply Z.div_pos; lia|]. rewrite ascii_app. split.
      * apply Forall_app. split; [exact I1|]. unfold ascii_text. cbn [list_ascii_of_string map]. constructor; [|constructor]. apply digit_low, Z.mod_pos_bound. lia.
      * rewrite app_length. unfold ascii_text at 2. cbn [list_ascii_of_string map List.length]. lia.
Qed.
Lemma print_text n : - max_exact <= n <= max_exact -> Forall low (ascii_text (print_Z n)) /\ (List.length (ascii_text (print_Z n)) <= 60)%nat.
Proof.
  intros H. unfold print_Z, print_nonneg. assert (L : forall m, 0 <= m <= max_exact -> (Z.to_nat (Z.log2 m) <= 53)%nat).
  { intros m M. assert (Z.log2 m <= Z.log2 max_exact) by (apply Z.log2_le_mono; lia). change (Z.log2 max_exact) with 53 in *. lia. }
  destruct (Z.ltb_spec n 0).
  - destruct (digits_text (Z.to_nat (Z.log2 (- n))) (- n)) as [D1 D2]; [lia|]. specialize (L (- n) ltac:(lia)).
    change (ascii_text (String "-" ?s)) with (45 :: ascii_text s).
    split; [constructor; [left; reflexivity|exact D1]|]. cbn [ascii_text list_ascii_of_string map List.length]. fold (ascii_text (print_digits (Z.to_nat (Z.log2 (- n))) (- n))). lia.
  - destruct (digits_text (Z.to_nat (Z.log2 n)) n) as [D1 D2]; [lia|]. specialize (L n ltac:(lia)). split; [exact D1|lia].
Qed.
Lemma utf8_low s : Forall low (ascii_text s) -> utf8 (ascii_text s) = s.
Proof.
  unfold ascii_text. induction s as [|c s IH]; [reflexivity|]. cbn [list_ascii_of_string map]. intros F. inversion F as [|? ? L F']; subst. fold (byte_of c).
  rewrite utf8_small by (unfold low in L; unfold byte_of; lia). f_equal; [unfold char_of, byte_of; now rewrite N2Z.id, ascii_N_embedding|exact (IH F')].
Qed.
Lemma table_low s : Forall low (ascii_text s) -> (List.length (ascii_text s) <= 600)%nat -> table_text (ascii_text s).
Proof.
  intros F L. destruct (utf16_ascii s) as [U T]. assert (N : forall x, ~ low x -> ~ In x (ascii_text s)) by (intros x H I; rewrite Forall_forall in F; exact (H (F x I))).
  repeat split; [exact T|apply N; unfold low; lia|apply N; unfold low; lia|apply N; unfold low; lia|]. rewrite U. unfold int32_max. lia.
Qed.
Lemma number_cell n : - max_exact <= n <= max_exact -> table_text (ascii_text (print_Z n)) /\ utf8 (ascii_text (print_Z n)) = print_Z n /\ lit (print_Z n) = utf16 (ascii_text (print_Z n)).
Proof.
  intros H. destruct (print_text n H) as [F L]. split; [apply table_low; [exact F|lia]|]. split; [now apply utf8_low|]. destruct (utf16_ascii (print_Z n)) as [U _]. rewrite U. reflexivity.
Qed.
Lemma short_table t : short_text t -> cell_text t -> table_text t.
Proof.
  intros [P L] [A B]. repeat split; try apply P; auto. destruct (sizes t (proj1 P)) as (_ & _ & S). unfold int32_max. lia.
Qed.

(* ---- counting ---- *)
Section Counting.
  Context {A : Type} (eq : forall x y : A, {x = y} + {x <> y}) (e : A -> jstr).
  Lemma distinct_snoc l x : distinct eq (l ++ [x]) = if in_dec eq x (distinct eq l) then distinct eq l else distinct eq l ++ [x].
  Proof. clear e. unfold distinct. now rewrite fold_left_app. Qed.
  Lemma distinct_ok l : NoDup (distinct eq l) /\ forall x, In x (distinct eq l) <-> In x l.
  Proof.
    clear e. induction l as [|y l [N I]] using rev_ind; [split; [constructor|reflexivity]|]. rewrite distinct_snoc. destruct (in_dec eq y (distinct eq l)) as [H|H].
    - split; [exact N|]. intros x. rewrite I, in_app_iff. cbn [In]. split; [tauto|]. intros [X|[<-|[]]]; [exact X|]. now apply I.
    - split; [|intros x; rewrite !in_app_iff, I; reflexivity]. assert (X : NoDup (rev (y :: rev (distinct eq l)))).
      { apply NoDup_rev. constructor; [now rewrite <- in_rev|now apply NoDup_rev]. }
      cbn [rev] in X. now rewrite rev_involutive in X.
  Qed.
  Lemma own_mapped {V} d x (f : A -> V) : (forall y, In y d -> e y = e x -> y = x) -> own (e x) (map (fun y => (e y, f y)) d) = if in_dec eq x d then Some (f x) else None.
  Proof.
    induction d as [|y d IH]; intros J; [reflexivity|]. cbn [map own]. destruct (jeqb (e y) (e x)) eqn:E.
    - apply jeqb_spec in E. apply J in E; [|now left]. subst y. destruct (in_dec eq x (x :: d)) as [_|N]; [reflexivity|exfalso; apply N; now left].
    - rewrite IH by (intros z H; apply J; now right). assert (y <> x) by (intros ->; rewrite jeqb_refl in E; discriminate).
      destruct (in_dec eq x d), (in_dec eq x (y :: d)) as [H1|H1]; auto; exfalso; [apply H1; now right|destruct H1; contradiction].
  Qed.
  Lemma set_mapped {V} d x v (f : A -> V) : NoDup d -> (forall y, In y d -> e y = e x -> y = x) -> set_own (e x) v (map (fun y => (e y, f y)) d) =
    if in_dec eq x d then map (fun y => (e y, if eq y x then v else f y)) d else map (fun y => (e y, f y)) d ++ [(e x, v)].
  Proof.
    induction d as [|y d IH]; intros N J; [reflexivity|]. inversion N as [|? ? N1 N2]; subst. cbn [map set_own]. destruct (jeqb (e y) (e x)) eqn:E.
    - apply jeqb_spec in E. apply J in E; [|now left]. subst y. destruct (in_dec eq x (x :: d)) as [_|H]; [|exfalso; apply H; now left].
      cbn [map]. destruct (eq x x); [|congruence]. f_equal. apply map_ext_in. intros y I. destruct (eq y x); [subst; contradiction|reflexivity].
    - assert (Y : y <> x) by (intros ->; rewrite jeqb_refl in E; discriminate). rewrite IH by (auto; intros z H; apply J; now right).
      destruct (in_dec eq x d) as [H|H], (in_dec eq x (y :: d)) as [H1|H1]; try (exfalso; apply H1; now right); try (exfalso; destruct H1; contradiction).
      + cbn [map]. destruct (eq y x); [contradiction|reflexivity].
      + reflexivity.
  Qed.
  Definition tally (l : list A) : counter := map (fun x => (e x, CNum (counted eq l x))) (distinct eq l).
  Lemma counted_snoc l x y : counted eq (l ++ [x]) y = if eq x y then Z.min (Z.of_nat (count_occ eq l y) + 1) max_exact else counted eq l y.
  Proof. unfold counted. rewrite count_occ_app. cbn [count_occ]. destruct (eq x y); unfold max_exact; f_equal; lia. Qed.
  Lemma count_step inherited l x : (forall y, In y l -> e y = e x -> y = x) -> inherited (e x) = false -> count_one inherited (e x) (tally l) = tally (l ++ [x]).
  Proof.
    intros J Ih. destruct (distinct_ok l) as [N I]. unfold count_one, tally. rewrite distinct_snoc.
    rewrite own_mapped by (intros y H; apply J; now apply I). destruct (in_dec eq x (distinct eq l)) as [H|H].
    - assert (P : 1 <= counted eq l x).
      { unfold counted. apply I in H. apply (count_occ_In eq) in H. lia. }
      cbn [ctrue]. rewrite (proj2 (Z.eqb_neq (counted eq l x) 0)) by lia. cbn [negb cincr].
      rewrite set_mapped by (auto; intros y Hy; apply J; now apply I). destruct (in_dec eq x (distinct eq l)); [|contradiction].
      apply map_ext_in. intros y _. rewrite counted_snoc. destruct (eq y x) as [->|Ny].
      + destruct (eq x x); [|congruence]. unfold counted, max_exact. destruct (Z.ltb_spec (Z.min (Z.of_nat (count_occ eq l x)) 9007199254740992) 9007199254740992); do 2 f_equal; lia.
      + destruct (eq x y); [congruence|reflexivity].
    - rewrite Ih. rewrite set_mapped by (auto; intros y Hy; apply J; now apply I). destruct (in_dec eq x (distinct eq l)); [contradiction|].
      assert (Z0 : count_occ eq l x = O) by (apply count_occ_not_In; intros X; now apply H, I).
      rewrite map_app. f_equal.
      + apply map_ext_in. intros y Hy. rewrite counted_snoc. destruct (eq x y); [subst; contradiction|reflexivity].
      + cbn [map]. rewrite counted_snoc. destruct (eq x x); [|congruence]. rewrite Z0. reflexivity.
  Qed.
End Counting.

Definition tag_name (kv : chars * chars) : jstr := utf16 (fst kv) ++ [9] ++ utf16 (snd kv).
Lemma before_tab a : forall b c d : chars, ~ In 9 a -> ~ In 9 c -> a ++ 9 :: b = c ++ 9 :: d -> a = c /\ b = d.
Proof.
  induction a as [|x a IH]; intros b c d A C E; destruct c as [|y c]; cbn [app] in E.
  - inversion E. auto.
  - inversion E; subst. exfalso. apply C. now left.
  - inversion E; subst. exfalso. apply A. now left.
  - inversion E; subst. destruct (IH b c d) as [-> ->]; auto; intros I; [apply A|apply C]; now right.
Qed.
Lemma tag_name_text kv : tag_name kv = utf16 (fst kv ++ [9] ++ snd kv).
Proof. unfold tag_name. now rewrite !utf16_app. Qed.
Definition good (inherited : jstr -> bool) (kv : chars * chars) : Prop :=
  short_text (fst kv) /\ short_text (snd kv) /\ cell_text (fst kv) /\ cell_text (snd kv) /\ named (fst kv) /\ inherited (utf16 (fst kv)) = false.
Lemma good_text inherited kv : good inherited kv -> text (fst kv ++ [9] ++ snd kv).
Proof.
  intros ((P & _) & (Q & _) & _). apply text_app. split; [apply P|]. apply text_app. split; [|apply Q]. constructor; [left; lia|constructor].
Qed.
Lemma tag_name_inj inherited a b : good inherited a -> good inherited b -> tag_name a = tag_name b -> a = b.
Proof.
  intros A B E. rewrite !tag_name_text in E. apply encodings_injective in E; [|now apply (good_text inherited)|now apply (good_text inherited)].
  cbn [app] in E. apply before_tab in E; [|apply A|apply B]. destruct a, b. cbn in *. destruct E; congruence.
Qed.
Lemma first_of kvs k v : NoDup (map fst kvs) -> In (k, v) kvs -> first_value k kvs = Some v.
Proof.
  induction kvs as [|[k' v'] kvs IH]; intros N I; [destruct I|]. cbn [first_value]. inversion N as [|? ? N1 N2]; subst. destruct I as [E|I].
  - inversion E; subst. destruct (list_eq_dec Z.eq_dec k k); [reflexivity|congruence].
  - destruct (list_eq_dec Z.eq_dec k' k) as [->|_]; [exfalso; apply N1; apply in_map_iff; exists (k, v); auto|now apply IH].
Qed.

Section Count.
  Variable inherited : jstr -> bool.
  Hypothesis NoTab : forall u, inherited u = true -> ~ In 9 u.
  Lemma loop_ok kvs s : countable inherited kvs -> incl s kvs -> forall l, Forall (good inherited) l ->
    count_loop inherited (tags_of kvs) (map (fun kv => utf16 (fst kv)) s) (tally chars_eq utf16 (map fst l), tally pair_eq tag_name l) =
    Ok (tally chars_eq utf16 (map fst (l ++ s)), tally pair_eq tag_name (l ++ s)).
  Proof.
    intros [N C]. assert (F : Forall (fun kv => short_text (fst kv) /\ short_text (snd kv)) kvs) by (revert C; apply Forall_impl; tauto).
    assert (G : forall kv, In kv kvs -> good inherited kv) by (rewrite Forall_forall in C; exact C).
    induction s as [|[k v] s IH]; intros IN l L; cbn [map count_loop].
    - now rewrite app_nil_r.
    - pose proof (IN _ (or_introl eq_refl)) as I. pose proof (G _ I) as Gk. destruct Gk as (Sk & Sv & Ck & Cv & Nk & Ik). cbn [fst snd] in *.
      rewrite (tags_get_key k kvs Sk Nk F), (first_of kvs k v N I). cbn [option_map obind text_or_undefined fst snd].
      change (utf16 k ++ [9] ++ utf16 v) with (tag_name (k, v)). rewrite count_step; [| |exact Ik].
      2:{ intros y Hy E. apply in_map_iff in Hy. destruct Hy as (kv & <- & Hy). rewrite Forall_forall in L. destruct (L _ Hy) as ((P & _) & _). revert E. apply encodings_injective; [apply P|apply Sk]. }
      rewrite count_step.
      + replace (map fst l ++ [k]) with (map fst (l ++ [(k, v)])) by (rewrite map_app; reflexivity).
        rewrite IH; [now rewrite <- !app_assoc|intros x Hx; apply IN; now right|]. apply Forall_app. split; [exact L|]. constructor; [now apply G|constructor].
      + intros y Hy. apply (tag_name_inj inherited); [rewrite Forall_forall in L; now apply L|now apply G].
      + destruct (inherited (tag_name (k, v))) eqn:E; [|reflexivity]. exfalso. apply (NoTab _ E). unfold tag_name. cbn [fst snd]. apply in_or_app. right. now left.
  Qed.
  Lemma calls_ok cs l : node_tags cs l -> Forall (countable inherited) l -> forall l0, Forall (good inherited) l0 ->
    count_calls inherited cs (tally chars_eq utf16 (map fst l0), tally pair_eq tag_name l0) =
    Ok (tally chars_eq utf16 (map fst (l0 ++ List.concat l)), tally pair_eq tag_name (l0 ++ List.concat l)).
  Proof.
    induction 1 as [|n kvs cs l E T IH|c cs l H T IH]; intros C l0 L.
    - cbn. now rewrite app_nil_r.
    - inversion C as [|? ? Ck Cl]; subst. cbn [count_calls]. unfold count_node. rewrite E.
      assert (F : Forall (fun kv => short_text (fst kv) /\ short_text (snd kv)) kvs) by (destruct Ck as [_ Ck]; revert Ck; apply Forall_impl; tauto).
      destruct (tag_access kvs F) as [K _]. fold (tags_of kvs) in K. rewrite K. cbn [obind]. pose proof (loop_ok kvs kvs Ck (incl_refl _) l0 L) as X. unfold chars in X |- *. rewrite X. clear X. cbn [obind].
      pose proof (IH Cl (l0 ++ kvs) ltac:(apply Forall_app; split; [exact L|apply Ck])) as Y. unfold chars in Y. rewrite Y. cbn [List.concat]. now rewrite <- !app_assoc.
    - destruct c; cbn [count_calls]; try (now apply IH). destruct o; try (now apply IH). exfalso. now apply (H n).
  Qed.
  Lemma counted_bound {A} eq (l : list A) x : 0 <= counted eq l x <= max_exact.
  Proof. unfold counted, max_exact. lia. Qed.
  Lemma csv_same (rows rows' : list (list jstr)) : Forall2 (fun r r' => csv_print r = csv_print r') rows rows' -> csv_file rows = csv_file rows'.
  Proof. induction 1 as [|r r' rows rows' E F IH]; [reflexivity|]. cbn [csv_file]. now rewrite E, IH. Qed.
  Lemma tag_line kv d : good inherited kv -> csv_print [tag_name kv; d] = csv_print [utf16 (fst kv); utf16 (snd kv); d].
  Proof.
    intros G. pose proof (good_text inherited kv G) as T. destruct G as (Sk & Sv & Ck & Cv & _). destruct kv as [k v]. cbn [fst snd] in *.
    destruct (short_table k Sk Ck) as (Pk & _ & _ & Lk). destruct (short_table v Sv Cv) as (Pv & _ & _ & Lv).
    unfold csv_print. cbn [csv_fields]. rewrite (printed_text k Pk Lk), (printed_text v Pv Lv). cbn [obind]. rewrite tag_name_text. cbn [fst snd].
    rewrite printed_text.
    - cbn [obind]. rewrite (utf8_app k ([9%Z] ++ v)) by (apply text_app in T; tauto). rewrite (utf8_app [9%Z] v) by (apply text_app in T; destruct T as [_ T]; apply text_app in T; tauto).
      change (utf8 [9%Z]) with (String "009" ""). destruct (v8_String_to_ostream d); cbn [obind]; [|reflexivity|reflexivity|reflexivity].
      unfold tab. change (ascii_of_nat 9) with "009"%char. f_equal. cbn [append]. rewrite !append_assoc. cbn [append]. rewrite ?append_assoc. reflexivity.
    - split; [exact T|]. rewrite !in_app_iff. cbn [In]. intros [H|[[H|[]]|H]]; [now apply Pk|discriminate|now apply Pv].
    - assert (L2 : (List.length (k ++ [9%Z] ++ v) < 1100)%nat) by (rewrite !app_length; destruct Sk, Sv; cbn [List.length]; lia).
      destruct (sizes _ T) as (_ & _ & S). unfold int32_max. lia.
  Qed.
  Theorem count_ok cs l : node_tags cs l -> Forall (countable inherited) l ->
    exists a b, count_js inherited cs = Ok (a, b) /\
      read_table a = map (fun k => [utf8 k; print_Z (counted chars_eq (map fst (List.concat l)) k)]) (distinct chars_eq (map fst (List.concat l))) /\
      read_table b = map (fun kv => [utf8 (fst kv); utf8 (snd kv); print_Z (counted pair_eq (List.concat l) kv)]) (distinct pair_eq (List.concat l)).
  Proof.
    intros T C. unfold count_js. pose proof (calls_ok cs l T C [] (Forall_nil _)) as E. cbn [map app] in E.
    match goal with |- context [count_calls inherited cs ?x] => assert (E2 : count_calls inherited cs x =
      Ok (tally chars_eq utf16 (map fst (List.concat l)), tally pair_eq tag_name (List.concat l))) by exact E end. rewrite E2. cbn [obind fst snd].
    set (all := List.concat l). assert (G : Forall (good inherited) all).
    { unfold all. clear -C. induction C as [|kvs l Ck C IH]; cbn [List.concat]; [constructor|]. apply Forall_app. split; [apply Ck|exact IH]. }
    rewrite Forall_forall in G.
    destruct (table_ok (map (fun k => [k; ascii_text (print_Z (counted chars_eq (map fst all) k))]) (distinct chars_eq (map fst all)))) as (a & Ea & Ra).
    { apply Forall_map, Forall_forall. intros k I. apply distinct_ok in I. apply in_map_iff in I. destruct I as (kv & <- & I). split; [discriminate|].
      destruct (G _ I) as (Sk & _ & Ck & _). pose proof (counted_bound chars_eq (map fst all) (fst kv)) as B.
      constructor; [now apply short_table|]. constructor; [|constructor]. refine (proj1 (number_cell _ _)). unfold max_exact in *. lia. }
    destruct (table_ok (map (fun kv => [fst kv; snd kv; ascii_text (print_Z (counted pair_eq all kv))]) (distinct pair_eq all))) as (b & Eb & Rb).
    { apply Forall_map, Forall_forall. intros kv I. apply distinct_ok in I. split; [discriminate|].
      destruct (G _ I) as (Sk & Sv & Ck & Cv & _). pose proof (counted_bound pair_eq all kv) as B.
      constructor; [now apply short_table|]. constructor; [now apply short_table|]. constructor; [|constructor]. refine (proj1 (number_cell _ _)). unfold max_exact in *. lia. }
    exists a, b. assert (Xa : csv_file (counter_rows (tally chars_eq utf16 (map fst all))) = Ok a).
    { rewrite <- Ea. f_equal. unfold counter_rows, tally. rewrite !map_map. apply map_ext. intros k. cbn [fst snd cnum_text map].
      pose proof (counted_bound chars_eq (map fst all) k) as B. destruct (number_cell (counted chars_eq (map fst all) k)) as (_ & _ & X); [unfold max_exact in *; lia|]. exact (f_equal (fun d => [utf16 k; d]) X). }
    assert (Xb : csv_file (counter_rows (tally pair_eq tag_name all)) = Ok b).
    { rewrite <- Eb. apply csv_same. unfold counter_rows, tally. rewrite !map_map.
      assert (H : forall kv, In kv (distinct pair_eq all) -> In kv all) by (intros kv; apply distinct_ok). revert H. clear Eb Rb. induction (distinct pair_eq all) as [|kv d IH]; intros H; cbn [map]; [constructor|]. constructor; [|apply IH; intros x Hx; apply H; now right].
      cbn [fst snd cnum_text]. rewrite tag_line by (apply G, H; now left). cbn [map]. pose proof (counted_bound pair_eq all kv) as B.
      destruct (number_cell (counted pair_eq all kv)) as (_ & _ & X); [unfold max_exact in *; lia|]. exact (f_equal (fun d => csv_print [utf16 (fst kv); utf16 (snd kv); d]) X). }
    rewrite Xa. cbn [obind]. rewrite Xb. split; [reflexivity|]. rewrite Ra, Rb, !map_map. split; apply map_ext; intros x; cbn [map].
    - destruct (number_cell (counted chars_eq (map fst all) x)) as (_ & -> & _); [|reflexivity]. pose proof (counted_bound chars_eq (map fst all) x). unfold max_exact in *. lia.
    - destruct (number_cell (counted pair_eq all x)) as (_ & -> & _); [|reflexivity]. pose proof (counted_bound pair_eq all x). unfold max_exact in *. lia.
  Qed.
End Count.

(* ---- the table of nodes ---- *)
Definition table_row (r : Z * list (chars * chars)) : list chars :=
  [ascii_text (print_Z (fst r)); or_undefined (first_value (ascii_text "name") (snd r)); or_undefined (first_value (ascii_text "note") (snd r))].
Lemma word_named s : match ascii_text s with c :: _ => negb ((48 <=? c) && (c <=? 57)) | [] => true end = true -> named (ascii_text s).
Proof. intros E n H X. destruct (print_digit n) as (d & q & Y & B); [lia|]. rewrite X, Y in E. lia. Qed.
Lemma word_short s : forallb (fun c => (0 <? c) && (c <? 55296)) (ascii_text s) = true -> (List.length (ascii_text s) < 512)%nat -> short_text (ascii_text s).
Proof.
  intros F L. rewrite forallb_forall in F. split; [split|exact L].
  - apply Forall_forall. intros c I. specialize (F c I). left. lia.
  - intros I. specialize (F 0 I). discriminate.
Qed.
Lemma or_undefined_text kvs k : text_or_undefined (option_map utf16 (first_value k kvs)) = utf16 (or_undefined (first_value k kvs)).
Proof. destruct (first_value k kvs); reflexivity. Qed.
Lemma row_ok a kvs : o_tags a = tags_of kvs -> tabular (o_id a, kvs) -> osm2csv_row a = Ok (map utf16 (table_row (o_id a, kvs))) /\ Forall table_text (table_row (o_id a, kvs)).
Proof.
  intros T (B & F & C). cbn [fst snd] in *.
  assert (N1 : tags_get (tags_of kvs) (lit "name") = Ok (option_map utf16 (first_value (ascii_text "name") kvs))).
  { apply (tags_get_key (ascii_text "name")); [apply word_short; [reflexivity|cbn; lia]|apply word_named; reflexivity|exact F]. }
  assert (N2 : tags_get (tags_of kvs) (lit "note") = Ok (option_map utf16 (first_value (ascii_text "note") kvs))).
  { apply (tags_get_key (ascii_text "note")); [apply word_short; [reflexivity|cbn; lia]|apply word_named; reflexivity|exact F]. }
  destruct (number_cell (o_id a)) as (Ti & _ & Li); [exact B|]. split.
  - unfold osm2csv_row. rewrite T, N1. cbn [obind]. rewrite N2. cbn [obind]. rewrite !or_undefined_text, Li. reflexivity.
  - assert (U : table_text (ascii_text "undefined")).
    { repeat split; [apply (word_short "undefined"); [reflexivity|cbn; lia]|cbn; lia|cbn; lia|cbn; lia|vm_compute; discriminate]. }
    assert (V : forall k, In k ["name"; "note"]%string -> table_text (or_undefined (first_value (ascii_text k) kvs))).
    { intros k Ik. destruct (first_value (ascii_text k) kvs) as [v|] eqn:E; cbn [or_undefined]; [|exact U].
      apply short_table; [now apply (first_value_text (ascii_text k) kvs)|now apply (C k)]. }
    unfold table_row. cbn [fst snd]. constructor; [exact Ti|]. constructor; [apply V; cbn; auto|]. constructor; [apply V; cbn; auto|constructor].
Qed.
Theorem osm2csv_ok cs l : node_rows cs l -> Forall tabular l -> exists s, osm2csv_js cs = Ok s /\
  read_table s = map (fun r => [print_Z (fst r); utf8 (or_undefined (first_value (ascii_text "name") (snd r))); utf8 (or_undefined (first_value (ascii_text "note") (snd r)))]) l.
Proof.
  intros R F. destruct (table_ok (map table_row l)) as (s & E & T).
  - clear R. apply Forall_map. revert F. apply Forall_impl. intros [id kvs] Tb. split; [discriminate|].
    destruct (row_ok (mkAttrs id 0 0 0 0 0 "" true (tags_of kvs)) kvs eq_refl Tb) as [_ H]. exact H.
  - exists s. split.
    + rewrite <- E. clear E T s. induction R as [|n kvs cs l Et R IH|c cs l H R IH].
      * reflexivity.
      * inversion F; subst. destruct (row_ok (n_attrs n) kvs Et) as [Er _]; [assumption|]. cbn [osm2csv_js map csv_file]. rewrite Er. cbn [obind]. rewrite IH by assumption. reflexivity.
      * destruct c; cbn [osm2csv_js]; try (now apply IH). destruct o; try (now apply IH). exfalso. now apply (H n).
    + rewrite T, map_map. apply map_ext_in. intros [id kvs] I. rewrite Forall_forall in F. destruct (F _ I) as (B & _). cbn [table_row map fst snd] in *.
      destruct (number_cell id) as (_ & -> & _); [exact B|reflexivity].
Qed.
