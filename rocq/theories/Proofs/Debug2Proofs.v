(** The dump of a whole file. *)
From Coq Require Import Reals Lra.
From Flocq Require Import IEEE754.BinarySingleNaN IEEE754.Binary IEEE754.Bits.
From Verif Require Import Base.Prelude Base.Decimal Model.Osm Model.Float Model.Time Model.Decfloat Model.Wkt Model.OsmFile Model.Handler Model.Pbf
  Model.Convert Model.Debug Spec.TimeSpec Spec.FloatSpec Spec.DecimalSpec Spec.HandlerSpec Spec.DebugSpec Proofs.TimeProofs Proofs.DecfloatProofs Proofs.HandlerProofs
  Proofs.XmlWriteProofs Proofs.DebugBounds Proofs.DebugProofs.
Local Open Scope Z_scope.
Local Open Scope string_scope.

(* ---- doubles have no newline ---- *)
Lemma print_nonneg_line n : (0 <= n)%Z -> one_line (print_nonneg n).
Proof. intros H. eapply number_line. apply print_number. exact H. Qed.
Lemma digits_one_line s a n : digits_from a s = Some n -> one_line s.
Proof. intros H X. destruct (digits_line s a n H _ X) as [d E]. discriminate E. Qed.
Lemma print_fixed_line k b : (0 <= b < 10 ^ Z.of_nat k)%Z -> one_line (print_fixed k b).
Proof. intros H. eapply digits_one_line. apply (print_fixed_number k b 0 H). Qed.
Lemma strip_line s : one_line s -> one_line (strip_zeros s).
Proof.
  unfold one_line. intros H X. apply H. clear H. revert X. induction s as [|c s IH]; [intros []|].
  cbn [strip_zeros]. destruct (strip_zeros s) as [|c' s'].
  - destruct (Ascii.eqb c "0"); [intros []|]. cbn [list_ascii_of_string In]. tauto.
  - intros [X|X]; [left; exact X|right; exact (IH X)].
Qed.
Lemma trimmed_line k n : (0 <= n)%Z -> one_line (print_trimmed k n).
Proof.
  intros H. unfold print_trimmed, with_fraction.
  assert (P : (0 < 10 ^ Z.of_nat k)%Z) by (apply Z.pow_pos_nonneg; lia).
  assert (A : one_line (print_nonneg (n / 10 ^ Z.of_nat k))) by (apply print_nonneg_line, Z.div_pos; lia).
  assert (B : one_line (strip_zeros (print_fixed k (n mod 10 ^ Z.of_nat k)))) by (apply strip_line, print_fixed_line, Z.mod_pos_bound; exact P).
  destruct (strip_zeros _) as [|c f]; [exact A|]. apply one_line_app; [exact A|]. apply one_line_app; [apply lit_line; reflexivity|exact B].
Qed.
Lemma round_ratio_nonneg n d : (0 <= n)%Z -> (0 < d)%Z -> (0 <= round_ratio n d)%Z.
Proof. intros A B. unfold round_ratio. pose proof (Z.div_pos n d A B). destruct (_ ?= _)%Z; [destruct (Z.even _)| |]; lia. Qed.
Lemma round_scaled_nonneg k n d : (0 <= n)%Z -> (0 < d)%Z -> (0 <= round_scaled k n d)%Z.
Proof.
  intros A B. unfold round_scaled. destruct (Z.leb_spec 0 k); apply round_ratio_nonneg; try lia.
Qed.
Lemma sign_line s : one_line (sign_text s).
Proof. destruct s; apply lit_line; reflexivity. Qed.
Lemma digit_char_line d : (0 <= d < 10)%Z -> digit_char d <> newline.
Proof.
  intros H E. assert (D : d = 0 \/ d = 1 \/ d = 2 \/ d = 3 \/ d = 4 \/ d = 5 \/ d = 6 \/ d = 7 \/ d = 8 \/ d = 9) by lia.
  repeat destruct D as [->|D]; try discriminate E. subst d. discriminate E.
Qed.
Lemma exponent_line x : one_line (print_exponent x).
Proof.
  unfold print_exponent. apply one_line_app; [destruct (x <? 0)%Z; apply lit_line; reflexivity|].
  destruct (Z.ltb_spec (Z.abs x) 100).
  - unfold print2. apply one_line_cons; [apply digit_char_line; split; [apply Z.div_pos; lia|apply Z.div_lt_upper_bound; lia]|].
    apply one_line_cons; [apply digit_char_line; apply Z.mod_pos_bound; lia|]. intros [].
  - apply print_nonneg_line. lia.
Qed.
Lemma printf_g_line P v : one_line (printf_g P v).
Proof.
  destruct v as [s|s|s pl pe|s m e B]; cbn [printf_g]; try (apply one_line_app; [apply sign_line|apply lit_line; reflexivity]).
  set (n := if (e <? 0)%Z then _ else _). set (d := if (e <? 0)%Z then (2 ^ (- e))%Z else _).
  assert (N : (0 <= n)%Z). { unfold n. destruct (Z.ltb_spec e 0); [lia|]. apply Z.mul_nonneg_nonneg; [lia|]. apply Z.pow_nonneg; lia. }
  assert (D : (0 < d)%Z). { unfold d. destruct (Z.ltb_spec e 0); [|lia]. apply Z.pow_pos_nonneg; lia. }
  destruct (sci_digits (Z.of_nat P) n d) as [ds x] eqn:E.
  assert (S : (0 <= ds)%Z).
  { unfold sci_digits in E. destruct (Z.eqb _ _); injection E as <- <-; [apply Z.pow_nonneg; lia|apply round_scaled_nonneg; assumption]. }
  apply one_line_app; [apply sign_line|]. destruct (_ && _)%bool; [apply trimmed_line; exact S|].
  apply one_line_app; [apply trimmed_line; exact S|]. apply one_line_app; [apply lit_line; reflexivity|apply exponent_line].
Qed.
Lemma printf_f_line k v : one_line (printf_f k v).
Proof.
  assert (Q : forall n, (0 <= n)%Z -> one_line (print_point k n)).
  { intros n H. unfold print_point. assert (P : (0 < 10 ^ Z.of_nat k)%Z) by (apply Z.pow_pos_nonneg; lia).
    apply one_line_app; [apply print_nonneg_line, Z.div_pos; lia|]. apply one_line_app; [apply lit_line; reflexivity|].
    apply print_fixed_line, Z.mod_pos_bound. exact P. }
  destruct v as [s|s|s pl pe|s m e B]; cbn [printf_f]; (apply one_line_app; [apply sign_line|]);
    try (apply lit_line; reflexivity); [apply Q; lia|]. apply Q.
  unfold scaled. destruct (Z.ltb_spec e 0).
  - apply round_ratio_nonneg; [|apply Z.pow_pos_nonneg; lia]. apply Z.mul_nonneg_nonneg; [lia|]. apply Z.pow_nonneg; lia.
  - apply Z.mul_nonneg_nonneg; [apply Z.mul_nonneg_nonneg; [lia|]|]; apply Z.pow_nonneg; lia.
Qed.
Lemma bounds_line f b : one_line (bounds_out f b).
Proof.
  unfold bounds_out, put_double. destruct f;
    repeat first [apply one_line_app | apply printf_g_line | apply printf_f_line | apply lit_line; reflexivity].
Qed.
Lemma double_near f x : in_i32 x -> near_text (put_double f (fix_to_double x)) x.
Proof.
  intros H. unfold put_double. destruct f; [|exact (six_digits x H)].
  exists (IZR x * precision)%R. split; [exact (coord_decimal x H)|]. rewrite Rminus_diag_eq by reflexivity. rewrite Rabs_R0. lra.
Qed.
Lemma bounds_shown m f : showable_meta m -> bounds_text (bounds_out f (mt_bounds m)) (mt_bounds m).
Proof.
  intros [_ [A B] [C D]]. unfold bounds_out, pos_lon, pos_lat. eexists _, _, _, _. split; [reflexivity|]. auto using double_near.
Qed.

(* ---- callbacks ---- *)
(** a sequence of lines that is the dump of a list of callbacks *)
Record is_dump (m : meta) (hist : bool) (ls : list string) (cs : list callback) : Prop := {
  id_line : Forall one_line ls;
  id_head : at_header ls;
  id_read : exists rs, (forall n, (List.length ls <= n)%nat -> read_items n ls = Some rs) /\ Forall2 (shows_call m hist) rs cs }.
Lemma dump_nil m hist : is_dump m hist [] [].
Proof. split; [constructor|exact I|]. exists []. split; [intros []; reflexivity|constructor]. Qed.
Lemma dump_cons m hist l r ls c cs x : Forall one_line (l :: r) -> In l headers -> read_item l (app r ls) = Some (x, ls) ->
  shows_call m hist x c -> is_dump m hist ls cs -> is_dump m hist (l :: app r ls) (c :: cs).
Proof.
  intros L H R S [A B (rs & C & D)]. split.
  - change (l :: app r ls) with (app (l :: r) ls). apply Forall_app. auto.
  - exact H.
  - exists (x :: rs). split; [|constructor; assumption]. intros n N. destruct n as [|n]; cbn [List.length] in N; [lia|].
    cbn [read_items]. rewrite R. rewrite C; [reflexivity|]. rewrite app_length in N. lia.
Qed.
Lemma dump_one m hist l c x ls cs : one_line l -> In l headers -> (forall r, read_item l r = Some (x, r)) ->
  shows_call m hist x c -> is_dump m hist ls cs -> is_dump m hist (l :: ls) (c :: cs).
Proof. intros L H R S D. apply (dump_cons m hist l [] ls c cs x); auto. Qed.

Lemma debug_calls m mv cs : Forall showable_call cs -> ~ In CInit cs -> forall s, exists s' ls,
  takes (debug m mv) cs s s' /\ d_hist s' = d_hist s /\ d_out s' = d_out s ++ unlines ls /\ is_dump m (d_hist s) ls cs.
Proof.
  induction 1 as [|c cs H _ IH]; intros N s.
  - exists s, []. split; [reflexivity|]. split; [reflexivity|]. split; [cbn [unlines]; rewrite sapp_nil_r; reflexivity|apply dump_nil].
  - assert (N' : ~ In CInit cs) by (intros X; apply N; right; exact X). specialize (IH N').
    assert (K : exists s1 l r x, debug m mv c s = (s1, None) /\ d_hist s1 = d_hist s /\ d_out s1 = d_out s ++ unlines (l :: r) /\
                Forall one_line (l :: r) /\ In l headers /\ (forall ls, at_header ls -> read_item l (app r ls) = Some (x, ls)) /\
                shows_call m (d_hist s) x c).
    { destruct c as [|t|o|t|a|]; cbn [showable_call] in H.
      - exfalso. apply N. left. reflexivity.
      - exists (put s ("before_" ++ group_name t ++ nl)), ("before_" ++ group_name t), [], (RBefore t).
        split; [reflexivity|]. split; [reflexivity|]. split; [cbn [put d_out unlines]; rewrite ?sapp_assoc; reflexivity|].
        assert (H' : In t [NODE; WAY; RELATION]) by exact H. cbn [In] in H'.
        repeat (destruct H' as [<-|H']; [split; [constructor; [apply lit_line; reflexivity|constructor]|]; split; [unfold headers; cbn; tauto|]; split; [reflexivity|constructor]|]).
        destruct H'.
      - destruct (object_text (d_hist s) o H) as (ts & e & T & TL & E & EL & D).
        destruct (read_object (d_hist s) ts e o [] H I) as (l & r & L & HL & _).
        eexists. exists l, r, (raw_object (d_hist s) ts e o).
        split; [cbn [debug]; rewrite D; reflexivity|]. cbn [put d_hist d_out]. split; [reflexivity|]. rewrite <- L.
        split; [reflexivity|]. split; [apply object_one_line; assumption|]. split; [exact HL|]. split.
        + intros ls A. destruct (read_object (d_hist s) ts e o ls H A) as (l' & r' & L' & _ & R). rewrite L in L'. injection L' as <- <-. exact R.
        + constructor. apply object_shows; assumption.
      - exists (put s ("after_" ++ group_name t ++ nl)), ("after_" ++ group_name t), [], (RAfter t).
        split; [reflexivity|]. split; [reflexivity|]. split; [cbn [put d_out unlines]; rewrite ?sapp_assoc; reflexivity|].
        assert (H' : In t [NODE; WAY; RELATION]) by exact H. cbn [In] in H'.
        repeat (destruct H' as [<-|H']; [split; [constructor; [apply lit_line; reflexivity|constructor]|]; split; [unfold headers; cbn; tauto|]; split; [reflexivity|constructor]|]).
        destruct H'.
      - destruct H.
      - exists (put s ("final" ++ nl)), "final", [], RFinal.
        split; [reflexivity|]. split; [reflexivity|]. split; [cbn [put d_out unlines]; rewrite ?sapp_assoc; reflexivity|].
        split; [constructor; [apply lit_line; reflexivity|constructor]|]. split; [unfold headers; cbn; tauto|]. split; [reflexivity|constructor]. }
    destruct K as (s1 & l & r & x & E1 & E2 & E3 & L & HL & R & S).
    destruct (IH s1) as (s2 & ls & T & E4 & E5 & D). exists s2, (l :: app r ls). split.
    + unfold takes in *. cbn [feed]. rewrite E1, T. reflexivity.
    + split; [congruence|]. split.
      * rewrite E5, E3. change (l :: app r ls) with (app (l :: r) ls). rewrite unlines_app, !sapp_assoc. reflexivity.
      * rewrite E2 in D. apply (dump_cons m (d_hist s) l r ls c cs x); auto. apply R. apply D.
Qed.
Lemma debug_init_calls m mv cs : showable_meta m -> Forall showable_call cs -> ~ In CInit cs -> forall s, exists s' ls,
  takes (debug m mv) (CInit :: cs) s s' /\ d_out s' = d_out s ++ unlines ls /\ is_dump m (d_hist s || mv) ls (CInit :: cs).
Proof.
  intros SM H N s. pose proof (sm_generator m SM) as G. destruct (debug_calls m mv cs H N (debug_init m mv s)) as (s' & ls & T & _ & O & D).
  assert (Hh : d_hist (debug_init m mv s) = (d_hist s || mv)%bool) by (cbn [debug_init d_hist]; destruct mv, (d_hist s); reflexivity).
  rewrite Hh in D. cbn [debug_init d_out] in O. rewrite !sapp_assoc in O.
  set (b := mt_bounds m) in *.
  exists s', ("meta:" :: app (("  generator=" ++ mt_generator m) :: (if bounds_defined b then ["  bounds=" ++ bounds_out (d_fixed s) b] else [])) ls).
  split; [unfold takes in *; cbn [feed debug]; rewrite T; reflexivity|]. split.
  - rewrite O. f_equal. cbn [unlines app]. rewrite !sapp_assoc. do 4 f_equal. rewrite unlines_app. destruct (bounds_defined b); cbn [unlines]; rewrite ?sapp_assoc; reflexivity.
  - apply (dump_cons m (d_hist s || mv) "meta:" (("  generator=" ++ mt_generator m) :: (if bounds_defined b then ["  bounds=" ++ bounds_out (d_fixed s) b] else [])) ls CInit cs
             (RMeta (mt_generator m) (if bounds_defined b then Some (bounds_out (d_fixed s) b) else None))).
    + constructor; [apply lit_line; reflexivity|]. constructor; [apply one_line_app; [apply lit_line; reflexivity|exact G]|].
      destruct (bounds_defined b); repeat constructor. apply one_line_app; [apply lit_line; reflexivity|apply bounds_line].
    + unfold headers; cbn; tauto.
    + unfold read_item. cbn [String.eqb Ascii.eqb Bool.eqb app]. rewrite field_here.
      destruct (bounds_defined b); cbn [app]; [rewrite field_here; reflexivity|].
      destruct (header_stops ls (id_head _ _ _ _ D)) as (_ & _ & _ & B). rewrite B. reflexivity.
    + constructor. unfold shows_bounds. pose proof (bounds_shown m (d_fixed s) SM) as BS. fold b in BS. unfold bounds_defined in *. fold b.
      destruct (pos_defined (bottom_left b)); auto.
    + exact D.
Qed.
Lemma takes_snoc S (step : callback -> S -> S * option halt) cs c : forall s s2, takes step (app cs [c]) s s2 ->
  exists s1, takes step cs s s1 /\ step c s1 = (s2, None).
Proof.
  unfold takes. induction cs as [|d cs IH]; intros s s2 H; cbn [app feed] in *.
  - destruct (step c s) as [s' [h|]] eqn:E; [discriminate H|]. injection H as <-. exists s. auto.
  - destruct (step d s) as [s' [h|]]; [discriminate H|]. destruct (feed step (app cs [c]) s') as [[m t] h] eqn:E.
    injection H as -> -> ->. destruct (IH s' s2 E) as (s1 & T & F). exists s1. rewrite T. auto.
Qed.
Lemma dump_file m mv hist fixed gs : showable_meta m -> gs <> [] -> (forall g, In g gs -> well_typed g) ->
  Forall showable (flat_map snd gs) ->
  exists s rs, input_read (debug m mv) (gs, Ok tt) (debug_new hist fixed) = (s, None, true) /\
    read_dump (d_out s) = Some rs /\ Forall2 (shows_call m (hist || mv)) rs (protocol gs ++ [CFinal]).
Proof.
  intros G N W H.
  assert (A : Forall showable_call (app (flat_map bracket (join gs)) [CFinal]) /\ ~ In CInit (app (flat_map bracket (join gs)) [CFinal])).
  { split.
    - apply Forall_app. split; [|repeat constructor]. rewrite <- (join_objects gs) in H. pose proof (join_well_typed gs W) as J.
      induction (join gs) as [|g js IH]; [constructor|]. cbn [flat_map] in *. apply Forall_app in H. destruct H as [H1 H2].
      apply Forall_app. split; [|apply IH; [exact H2|intros x X; apply J; right; exact X]].
      assert (T : In (fst g) [NODE; WAY; RELATION]).
      { destruct (J g (or_introl eq_refl)) as [[->|[->| ->]] _]; cbn; tauto. }
      unfold bracket. constructor; [exact T|]. apply Forall_app. split; [apply Forall_map; exact H1|]. constructor; [exact T|constructor].
    - intros X. apply in_app_or in X. destruct X as [X|[X|[]]]; [|discriminate X]. exact (proj1 (bracket_no_init _) X). }
  destruct A as [A B]. destruct (debug_init_calls m mv _ G A B (debug_new hist fixed)) as (s & ls & T & O & D).
  assert (P : app (protocol gs) [CFinal] = CInit :: app (flat_map bracket (join gs)) [CFinal]) by reflexivity.
  rewrite <- P in T, D. destruct (takes_snoc _ _ _ _ _ _ T) as (s1 & T1 & F).
  pose proof (no_throw _ (debug m mv) gs _ s1 N W T1) as Q. rewrite F in Q. cbn [fst snd] in Q.
  destruct D as [L _ (rs & R & S)]. cbn [debug_new d_hist d_out String.append] in *.
  exists s, rs. split; [|split; [|exact S]].
  - unfold input_read. cbn [snd fst]. unfold observe in Q. destruct (parse (debug m mv) gs None (debug_new hist fixed)) as [y h].
    cbn [fst snd] in Q. injection Q as Q1 Q2 Q3. rewrite Q2, Q3. reflexivity.
  - unfold read_dump. rewrite O, (lines_unlines ls L). apply R. apply le_n.
Qed.

(* ---- what a text says is unique ---- *)
Lemma number_unique s a b : number s a -> number s b -> a = b.
Proof. intros [_ A] [_ B]. congruence. Qed.
Lemma number_no_minus d a : ~ number (String "-" d) a.
Proof. intros [_ H]. discriminate H. Qed.
Lemma int_unique s a b : int_text s a -> int_text s b -> a = b.
Proof.
  intros [A|(d & m & -> & A & ->)] [B|(d' & m' & E & B & ->)].
  - exact (number_unique _ _ _ A B).
  - subst s. destruct (number_no_minus _ _ A).
  - destruct (number_no_minus _ _ B).
  - injection E as <-. f_equal. exact (number_unique _ _ _ A B).
Qed.
Lemma sapp_inj a : forall b c d, a ++ c = b ++ d -> String.length c = String.length d -> a = b /\ c = d.
Proof.
  induction a as [|x a IH]; intros b c d H L; destruct b as [|y b]; cbn [String.append] in H.
  - auto.
  - exfalso. subst c. cbn [String.length] in L. rewrite sapp_length in L. lia.
  - exfalso. subst d. cbn [String.length] in L. rewrite sapp_length in L. lia.
  - injection H as <- H. destruct (IH _ _ _ H L) as [<- <-]. auto.
Qed.
Lemma degrees_unique s a b : degrees_text s a -> degrees_text s b -> a = b.
Proof.
  intros (sg & i & f & x & y & -> & I & [L F] & S) (sg' & i' & f' & x' & y' & E & I' & [L' F'] & S').
  assert (E' : (sg ++ i ++ ".") ++ f = (sg' ++ i' ++ ".") ++ f') by (rewrite !sapp_assoc; exact E).
  destruct (sapp_inj _ _ _ _ E' ltac:(congruence)) as [Q ->]. rewrite <- !sapp_assoc in Q.
  destruct (sapp_inj _ _ _ _ Q eq_refl) as [Q' _]. pose proof (number_unique _ _ _ F F') as <-.
  destruct S as [[-> ->]|[-> ->]], S' as [[-> ->]|[-> ->]]; cbn [String.append] in Q'.
  - subst i'. pose proof (number_unique _ _ _ I I') as <-. reflexivity.
  - subst i. destruct (number_no_minus _ _ I).
  - subst i'. destruct (number_no_minus _ _ I').
  - injection Q' as <-. pose proof (number_unique _ _ _ I I') as <-. reflexivity.
Qed.
Lemma time_unique s a b : time_text s a -> time_text s b -> a = b.
Proof.
  assert (X : forall t, ~ iso_text t "").
  { intros t (n & d & ys & ms & ds & h & hs & mi & mis & se & ses & _ & _ & _ & _ & _ & [A _] & _ & _ & _ & _ & _ & E).
    destruct ys; [discriminate A|discriminate E]. }
  intros [A|[-> ->]] [B|[B ->]].
  - apply parse_iso_text in A. apply parse_iso_text in B. congruence.
  - subst s. destruct (X _ A).
  - destruct (X _ B).
  - reflexivity.
Qed.
Lemma attrs_unique hist r a b : shows_attrs hist r a -> shows_attrs hist r b -> same_attrs hist a b.
Proof.
  intros A B. destruct A as [A1 A2 A3 A4 A5 A6 A7 _ A9], B as [B1 B2 B3 B4 B5 B6 B7 _ B9]. unfold same_attrs.
  split; [exact (int_unique _ _ _ A1 B1)|]. split; [exact (int_unique _ _ _ A2 B2)|]. split; [exact (int_unique _ _ _ A3 B3)|].
  split; [congruence|]. split; [exact (int_unique _ _ _ A5 B5)|]. split; [exact (time_unique _ _ _ A6 B6)|]. split.
  - rewrite <- B9 in A9. revert A9. clear. generalize (o_tags b). induction (o_tags a) as [|t l IH]; intros [|u m] H; try discriminate H; [reflexivity|].
    cbn [map] in H. injection H as K V H. f_equal; [destruct t, u; cbn in *; congruence|exact (IH _ H)].
  - intros ->. destruct (ra_history r) as [[v e]|]; [|discriminate A7]. destruct A7 as (_ & V & E), B7 as (_ & V' & E').
    split; [|exact (time_unique _ _ _ E E')]. unfold bool_text in *. destruct (o_visible a), (o_visible b); congruence.
Qed.
Lemma object_unique hist r o p : shows_object hist r o -> shows_object hist r p -> same_shown hist o p.
Proof.
  intros A B. destruct A as [a x y n A X Y|a k rs w A _ R|a k ms q A _ M]; inversion B as [? ? ? n' A' X' Y'|? ? ? w' A' _ R'|? ? ? q' A' _ M']; subst; cbn [same_shown].
  - split; [eapply attrs_unique; eauto|]. pose proof (degrees_unique _ _ _ X X'). pose proof (degrees_unique _ _ _ Y Y'). destruct (n_pos n), (n_pos n'); cbn in *; congruence.
  - split; [eapply attrs_unique; eauto|]. revert R R'. generalize (map wn_ref (w_nodes w)) (map wn_ref (w_nodes w')). clear.
    induction rs as [|s rs IH]; intros l l' R R'; inversion R; inversion R'; subst; [reflexivity|]. f_equal; [eapply int_unique; eauto|apply IH; assumption].
  - split; [eapply attrs_unique; eauto|]. revert M M'. generalize (r_members q) (r_members q'). clear.
    induction ms as [|s ms IH]; intros l l' R R'; inversion R as [|? u ? us H1 H2]; inversion R' as [|? v ? vs H1' H2']; subst; [reflexivity|].
    f_equal; [|apply IH; assumption]. destruct s as [[t n] role]. cbn in H1, H1'. destruct H1 as (T & N & L), H1' as (T' & N' & L').
    pose proof (int_unique _ _ _ N N'). destruct u, v; cbn in *; congruence.
Qed.
Lemma call_unique m m' hist r c c' : shows_call m hist r c -> shows_call m' hist r c' -> same_call hist c c'.
Proof.
  intros A B. destruct A as [b|t|t|r o S|]; inversion B as [b' Q|t'|t'|r' o' S'|]; subst; try (constructor; fail);
    try (exfalso; match goal with S : shows_object _ _ _ |- _ => inversion S end; fail).
  constructor. eapply object_unique; eauto.
Qed.
Lemma same_dump m m' mv hist fixed fixed' gs gs' s s' : showable_meta m -> showable_meta m' -> gs <> [] -> gs' <> [] ->
  (forall g, In g gs -> well_typed g) -> (forall g, In g gs' -> well_typed g) ->
  Forall showable (flat_map snd gs) -> Forall showable (flat_map snd gs') ->
  input_read (debug m mv) (gs, Ok tt) (debug_new hist fixed) = (s, None, true) ->
  input_read (debug m' mv) (gs', Ok tt) (debug_new hist fixed') = (s', None, true) -> d_out s = d_out s' ->
  Forall2 (same_call (hist || mv)) (protocol gs) (protocol gs').
Proof.
  intros G G' N N' W W' H H' E E' D.
  destruct (dump_file m mv hist fixed gs G N W H) as (t & rs & T & R & S). rewrite T in E. injection E as ->.
  destruct (dump_file m' mv hist fixed' gs' G' N' W' H') as (t' & rs' & T' & R' & S'). rewrite T' in E'. injection E' as ->.
  rewrite D, R' in R. injection R as ->.
  assert (K : Forall2 (same_call (hist || mv)) (protocol gs ++ [CFinal])%list (protocol gs' ++ [CFinal])%list).
  { revert S S'. generalize (protocol gs ++ [CFinal])%list (protocol gs' ++ [CFinal])%list. clear. induction rs as [|r rs IH]; intros l l' A B; inversion A; inversion B; subst; constructor; [eapply call_unique; eauto|apply IH; assumption]. }
  clear - K. revert K. generalize (protocol gs) (protocol gs'). induction l as [|c l IH]; intros l' K; inversion K as [|? c' ? r A B E1 E2]; subst.
  - destruct l' as [|x l']; [constructor|]. inversion B; subst. destruct l'; discriminate.
  - destruct l' as [|x l']; cbn in E2; injection E2 as -> ->.
    + inversion B. destruct l; discriminate.
    + constructor; [exact A|apply IH; exact B].
Qed.
