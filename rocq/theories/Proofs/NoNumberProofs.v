(** Coordinates that are not numbers. *)
From Verif Require Import Base.Prelude Base.Decimal Model.Osm Model.Float Model.Decfloat Model.Time Model.Handler Model.Xml
  Spec.TimeSpec Spec.FloatSpec Spec.DecimalSpec Spec.NoNumberSpec Spec.XmlSpec
  Proofs.TimeProofs Proofs.AttrProofs Proofs.DecfloatProofs.

Lemma read_sign_inv s : exists sg, sign_of sg (fst (read_sign s)) /\ s = (sg ++ snd (read_sign s))%string.
Proof.
  destruct s as [|c r]; [exists ""%string; split; [constructor|reflexivity]|]. cbn [read_sign].
  destruct (Ascii.eqb_spec c "-") as [->|_]; [exists "-"%string; split; [constructor|reflexivity]|].
  destruct (Ascii.eqb_spec c "+") as [->|_]; [exists "+"%string; split; [constructor|reflexivity]|].
  exists ""%string. split; [constructor|reflexivity].
Qed.
Lemma one_digit c : is_digit c = true -> exists n, number (String c "") n.
Proof. intros D. exists (0 * 10 + digit_val c). split; [discriminate|]. cbn [digits_from]. rewrite digit_eq, D. reflexivity. Qed.
Lemma scan_decimal_some s x : scan_decimal s = Some x -> exists a b neg n k, s = (a ++ b)%string /\ mantissa a neg n k.
Proof.
  intros E. destruct (skip_space_inv s) as (sp & ES & B). unfold scan_decimal in E.
  destruct (read_sign_inv (skip_space s)) as (sg & SG & EG). destruct (read_sign (skip_space s)) as [neg t]. cbn [fst snd] in *.
  destruct (starts_digit t) eqn:D.
  - destruct t as [|c t]; [discriminate|]. destruct (one_digit c D) as (n & N).
    exists (sp ++ sg ++ String c "")%string, t, neg, n, 0. split; [|constructor; assumption].
    rewrite ES, EG, !sapp_assoc. reflexivity.
  - assert (Sc : scan_digits t 0 = (0, t)) by (destruct t as [|c t]; [reflexivity|]; cbn [starts_digit] in D; cbn [scan_digits]; rewrite D; reflexivity).
    rewrite Sc in E. destruct t as [|c f]; [discriminate|]. destruct (Ascii.eqb_spec c ".") as [->|_]; [|discriminate].
    destruct (scan_digits f 0) as [m r]. destruct (starts_digit f) eqn:DF; [|discriminate].
    destruct f as [|c f]; [discriminate|]. destruct (one_digit c DF) as (n & N).
    exists (sp ++ sg ++ "" ++ "." ++ String c "")%string, f, neg, n, (Z.of_nat (String.length (String c ""))).
    split; [|constructor; assumption]. rewrite ES, EG, !sapp_assoc. reflexivity.
Qed.
Lemma atof_no_number s : no_number s -> atof s = d_of_Z 0.
Proof.
  intros [H _]. unfold atof. destruct (scan_decimal s) as [x|] eqn:E; [|reflexivity]. exfalso.
  destruct (scan_decimal_some s x E) as (a & b & neg & n & k & ES & M). exact (H _ _ _ _ _ ES M).
Qed.
Lemma node_without_numbers x y : no_number x -> no_number y ->
  exists st, x_events (events_of (Elem "osm" [] [Elem "node" [("id", "7"); ("lon", x); ("lat", y)]%string []])) x_new = (st, Ok tt) /\
    x_groups st = announced [ONode (mkNode (mkAttrs 7 0 0 0 0 (-1) "" true []) (mkPos 0 0))].
Proof.
  intros Hx Hy.
  assert (E : x_events (events_of (Elem "osm" [] [Elem "node" [("id", "7"); ("lon", x); ("lat", y)]%string []])) x_new =
    x_events (events_of (Elem "osm" [] [Elem "node" [("id", "7"); ("lon", ""); ("lat", "")]%string []])) x_new).
  { cbn [events_of flat_map app x_events x_event]. unfold start_element at 1 3. cbn [x_new x_ctx]. unfold x_try at 1 2. cbn [is_root_name String.eqb Ascii.eqb Bool.eqb orb root_attrs].
    unfold x_ok at 1 3. cbv beta iota.
    assert (I : init_object false true [("id", "7"); ("lon", x); ("lat", y)]%string = init_object false true [("id", "7"); ("lon", ""); ("lat", "")]%string).
    { unfold init_object. cbn [init_attrs String.eqb Ascii.eqb Bool.eqb]. rewrite (atof_no_number x Hx), (atof_no_number y Hy). reflexivity. }
    unfold start_element. cbn [x_enter x_ctx x_set_meta]. unfold start_top. cbn [String.eqb Ascii.eqb Bool.eqb]. cbn [x_delete x_node_there x_emit x_new]. change (x_delete (x_enter CtxTop (x_set_meta (x_meta x_new) x_new))) with false. rewrite I. reflexivity. }
  rewrite E. eexists. split; [vm_compute; reflexivity|]. vm_compute. reflexivity.
Qed.
Lemma no_digits_no_number s : (forall c, In c (list_ascii_of_string s) -> is_digit c = false) ->
  (forall c, In c (list_ascii_of_string s) -> ~ In c ["i"; "I"; "n"; "N"]%char) -> no_number s.
Proof.
  intros H W.
  assert (LA : forall a b, list_ascii_of_string (a ++ b) = (list_ascii_of_string a ++ list_ascii_of_string b)%list)
    by (induction a as [|c a IH]; intros b; cbn; [reflexivity|now rewrite IH]).
  assert (NU : forall ds n, number ds n -> exists c, In c (list_ascii_of_string ds) /\ is_digit c = true).
  { intros ds n N. destruct (number_head ds n N) as (c & r & -> & D). exists c. split; [now left|exact D]. }
  split.
  - intros a b neg n k -> M. rewrite LA in H.
    assert (X : exists c, In c (list_ascii_of_string a) /\ is_digit c = true).
    { destruct M as [sp sg neg ds n B S N|sp sg neg ds fs n B S N]; destruct (NU _ _ N) as (c & I & D); exists c; (split; [|exact D]);
        rewrite !LA; rewrite ?LA in I.
      - apply in_or_app. right. apply in_or_app. now right.
      - apply in_or_app. right. apply in_or_app. right. apply in_app_or in I. apply in_or_app. destruct I as [I|I]; [now left|right]. apply in_or_app. now right. }
    destruct X as (c & I & D). rewrite (H c) in D; [discriminate|]. apply in_or_app. now left.
  - intros sp sg neg c r _ _ ->. apply W. rewrite !LA. apply in_or_app. right. apply in_or_app. right. now left.
Qed.
