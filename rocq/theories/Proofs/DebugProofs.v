(** The dump can be read back. *)
From Verif Require Import Base.Prelude Base.Decimal Model.Osm Model.Float Model.Time Model.Decfloat Model.OsmFile Model.Handler Model.Pbf
  Model.Convert Model.Debug Spec.TimeSpec Spec.HandlerSpec Spec.DebugSpec Proofs.TimeProofs Proofs.DecfloatProofs Proofs.HandlerProofs.
Local Open Scope Z_scope.
Local Open Scope string_scope.

(* ---- lines ---- *)
Fixpoint unlines (ls : list string) : string := match ls with [] => "" | l :: r => l ++ nl ++ unlines r end.
Lemma unlines_app a b : unlines (a ++ b) = unlines a ++ unlines b.
Proof. induction a as [|x a IH]; [reflexivity|]. cbn [unlines app]. rewrite IH, !sapp_assoc. reflexivity. Qed.
Lemma chars_app a b : list_ascii_of_string (a ++ b) = (list_ascii_of_string a ++ list_ascii_of_string b)%list.
Proof. induction a as [|c a IH]; [reflexivity|]. cbn [String.append list_ascii_of_string app]. rewrite IH. reflexivity. Qed.
Lemma one_line_app a b : one_line a -> one_line b -> one_line (a ++ b).
Proof. unfold one_line. rewrite chars_app. intros A B H. apply in_app_or in H. tauto. Qed.
Lemma one_line_cons c a : c <> newline -> one_line a -> one_line (String c a).
Proof. unfold one_line. cbn [list_ascii_of_string]. intros A B [H|H]; auto. Qed.
Lemma lines_from_line l : forall cur r, one_line l ->
  lines_from cur (l ++ nl ++ r) = match lines_from "" r with Some ls => Some ((cur ++ l) :: ls) | None => None end.
Proof.
  induction l as [|c l IH]; intros cur r H.
  - cbn [String.append]. unfold nl. cbn [String.append lines_from]. rewrite sapp_nil_r. reflexivity.
  - cbn [String.append lines_from]. unfold one_line in H. cbn [list_ascii_of_string] in H.
    destruct (Ascii.eqb_spec c newline) as [->|N]; [exfalso; apply H; left; reflexivity|].
    rewrite IH by (intros X; apply H; right; exact X). rewrite sapp_assoc. reflexivity.
Qed.
Lemma lines_unlines ls : Forall one_line ls -> lines (unlines ls) = Some ls.
Proof.
  unfold lines. induction 1 as [|l ls H _ IH]; [reflexivity|]. cbn [unlines]. rewrite (lines_from_line l "" _ H), IH. reflexivity.
Qed.
Lemma after_app p s : after p (p ++ s) = Some s.
Proof. induction p as [|c p IH]; [reflexivity|]. cbn [String.append after]. rewrite Ascii.eqb_refl. exact IH. Qed.
Lemma split_at_app c s r : ~ In c (list_ascii_of_string s) -> split_at c (s ++ String c r) = (s, String c r).
Proof.
  induction s as [|a s IH]; intros H; cbn [String.append split_at].
  - rewrite Ascii.eqb_refl. reflexivity.
  - cbn [list_ascii_of_string] in H. destruct (Ascii.eqb_spec a c) as [->|N]; [exfalso; apply H; left; reflexivity|].
    rewrite IH by (intros X; apply H; right; exact X). reflexivity.
Qed.
Lemma without_last_app s c : without_last c (s ++ String c "") = Some s.
Proof.
  induction s as [|a s IH]; cbn [String.append without_last]; [rewrite Ascii.eqb_refl; reflexivity|].
  rewrite IH. destruct s; reflexivity.
Qed.
Lemma field_here p x r : field p ((p ++ x) :: r) = Some (x, r).
Proof. unfold field. rewrite after_app. reflexivity. Qed.
Lemma closed_here p x c r : closed_field p c ((p ++ x ++ String c "") :: r) = Some (x, r).
Proof. unfold closed_field. rewrite field_here, without_last_app. reflexivity. Qed.

(* ---- texts ---- *)
Lemma find_none c s : ~ In c (list_ascii_of_string s) -> find_first c s = None.
Proof.
  induction s as [|a s IH]; intros H; [reflexivity|]. cbn [list_ascii_of_string In] in H. cbn [find_first].
  destruct (Ascii.eqb_spec a c) as [->|N]; [exfalso; apply H; auto|]. rewrite IH by tauto. reflexivity.
Qed.
Lemma c_text_id s : no_nul s -> c_text s = s.
Proof. intros H. unfold c_text, upto_first. rewrite (find_none _ _ H). reflexivity. Qed.
Lemma digits_line s : forall a n, digits_from a s = Some n -> forall c, In c (list_ascii_of_string s) -> exists d, digit c = Some d.
Proof.
  induction s as [|c s IH]; intros a n H x; [intros []|]. cbn [digits_from] in H. destruct (digit c) as [d|] eqn:D; [|discriminate].
  intros [->|X]; [eauto|]. exact (IH _ _ H _ X).
Qed.
Lemma number_chars s n c : number s n -> In c (list_ascii_of_string s) -> exists d, digit c = Some d.
Proof. intros [_ H]. exact (digits_line s 0 n H c). Qed.
Lemma print_int n : int_text (print_Z n) n.
Proof.
  unfold print_Z. destruct (Z.ltb_spec n 0).
  - right. exists (print_nonneg (- n)), (- n). split; [reflexivity|]. split; [apply print_number; lia|lia].
  - left. apply print_number. lia.
Qed.
Lemma int_chars s n c : int_text s n -> In c (list_ascii_of_string s) -> c = "-"%char \/ exists d, digit c = Some d.
Proof.
  intros [H|(d & m & -> & H & _)] X; [right; exact (number_chars _ _ _ H X)|].
  cbn [list_ascii_of_string] in X. destruct X as [<-|X]; [auto|]. right. exact (number_chars _ _ _ H X).
Qed.
Lemma int_line s n : int_text s n -> one_line s.
Proof. intros H X. destruct (int_chars _ _ _ H X) as [E|[d E]]; discriminate E. Qed.
Lemma int_no_space s n : int_text s n -> ~ In " "%char (list_ascii_of_string s).
Proof. intros H X. destruct (int_chars _ _ _ H X) as [E|[d E]]; discriminate E. Qed.
Lemma number_line s n : number s n -> one_line s.
Proof. intros H X. destruct (number_chars _ _ _ H X) as [d E]. discriminate E. Qed.
Lemma print_coordinate x : in_i32 x -> degrees_text (printf_f 7 (fix_to_double x)) x.
Proof.
  intros H. rewrite (printf_coord x H). unfold print_point. change (10 ^ Z.of_nat 7) with 10000000.
  assert (B : 0 <= Z.abs x mod 10000000 < 10000000) by (apply Z.mod_pos_bound; lia).
  exists (sign_text (x <? 0)%Z), (print_nonneg (Z.abs x / 10000000)), (print_fixed 7 (Z.abs x mod 10000000)), (Z.abs x / 10000000), (Z.abs x mod 10000000).
  split; [reflexivity|]. split; [apply print_number; apply Z.div_pos; lia|]. split.
  - split; [apply print_fixed_length|]. split.
    + intros E. pose proof (print_fixed_length 7 (Z.abs x mod 10000000)) as L. rewrite E in L. discriminate L.
    + apply (print_fixed_number 7); exact B.
  - pose proof (Z.div_mod (Z.abs x) 10000000). unfold sign_text. destruct (Z.ltb_spec x 0); [right|left]; (split; [reflexivity|lia]).
Qed.
Lemma coordinate_line s n : degrees_text s n -> one_line s.
Proof.
  intros (sg & i & f & a & b & -> & I & F & S). apply one_line_app.
  - destruct S as [[-> _]|[-> _]]; unfold one_line; cbn; [tauto|]. intros [E|[]]. discriminate E.
  - apply one_line_app; [eapply number_line; eauto|]. apply (one_line_app "."); [|destruct F; eapply number_line; eauto].
    unfold one_line; cbn. intros [E|[]]. discriminate E.
Qed.
Lemma lit_line p : existsb (Ascii.eqb newline) (list_ascii_of_string p) = false -> one_line p.
Proof.
  intros H X. enough (existsb (Ascii.eqb newline) (list_ascii_of_string p) = true) by congruence.
  apply existsb_exists. exists newline. split; [exact X|apply Ascii.eqb_refl].
Qed.
Lemma iso_line t s : iso_text t s -> one_line s.
Proof.
  intros (n & d & ys & ms & ds & h & hs & mi & mis & se & ses & _ & _ & _ & _ & _ & [_ A] & [_ B] & [_ C] & [_ D] & [_ E] & [_ F] & ->).
  repeat first [apply one_line_app | eapply number_line; eassumption | apply lit_line; reflexivity].
Qed.
Lemma show_time t : showable_time t -> exists s, to_iso t = Ok s /\ time_text s t /\ one_line s.
Proof.
  intros [A B]. destruct (Z.eq_dec t 0) as [->|N].
  - exists "". split; [reflexivity|]. split; [right; auto|]. intros [].
  - destruct (to_iso_spec t ltac:(lia)) as (s & E & I). exists s. split; [exact E|]. split; [left; exact I|exact (iso_line _ _ I)].
Qed.

(* ---- the lines of a block ---- *)
Definition tag_line (t : tag) : string := "    k=|" ++ tkey t ++ "| v=|" ++ tvalue t ++ "|".
Definition attr_lines (hist : bool) (ts e : string) (a : attrs) : list string :=
  app ["  id=" ++ print_Z (o_id a); "  version=" ++ print_Z (o_version a); "  uid=" ++ print_Z (o_uid a);
   "  user=|" ++ o_user a ++ "|"; "  changeset=" ++ print_Z (o_changeset a); "  timestamp=" ++ ts]
  (app (if hist then ["  visible=" ++ (if o_visible a then "yes" else "no"); "  endtime=" ++ e] else [])
  (("  tags: (count=" ++ print_Z (Z.of_nat (List.length (o_tags a))) ++ ")") :: map tag_line (o_tags a))).
Definition ref_line (n : way_node) : string := "    ref=" ++ print_Z (wn_ref n).
Definition member_line (m : member) : string := "    type=" ++ String (m_type m) (" ref=" ++ print_Z (m_ref m) ++ " role=|" ++ m_role m ++ "|").
Definition object_lines (hist : bool) (ts e : string) (o : object) : list string :=
  match o with
  | ONode n => "node:" :: app (attr_lines hist ts e (n_attrs n)) ["  lon=" ++ printf_f 7 (pos_lon (n_pos n)); "  lat=" ++ printf_f 7 (pos_lat (n_pos n))]
  | OWay w => "way:" :: app (attr_lines hist ts e (w_attrs w))
      (("  node_count=" ++ print_Z (Z.of_nat (List.length (w_nodes w)))) :: "  nodes:" :: map ref_line (w_nodes w))
  | ORel r => "relation:" :: app (attr_lines hist ts e (r_attrs r))
      (("  members: (count=" ++ print_Z (Z.of_nat (List.length (r_members r))) ++ ")") :: map member_line (r_members r))
  end.

Lemma tags_lines ts : Forall (fun t => showable_text (tkey t) /\ no_bar (tkey t) /\ showable_text (tvalue t)) ts ->
  put_tags ts = unlines (map tag_line ts).
Proof.
  induction 1 as [|t ts ((_ & K) & _ & _ & V) _ IH]; [reflexivity|]. cbn [put_tags map unlines]. unfold tag_line at 1.
  rewrite (c_text_id _ K), (c_text_id _ V), IH, !sapp_assoc. reflexivity.
Qed.
Lemma refs_lines ns : put_refs ns = unlines (map ref_line ns).
Proof. induction ns as [|n ns IH]; [reflexivity|]. cbn [put_refs map unlines]. unfold ref_line at 1. rewrite IH, !sapp_assoc. reflexivity. Qed.
Lemma members_lines ms : Forall (fun m => m_type m <> newline /\ showable_text (m_role m)) ms -> put_members ms = unlines (map member_line ms).
Proof.
  induction 1 as [|m ms (_ & _ & R) _ IH]; [reflexivity|]. cbn [put_members map unlines]. unfold member_line at 1.
  rewrite (c_text_id _ R), IH. do 4 (cbn [String.append]; rewrite ?sapp_assoc). reflexivity.
Qed.
Lemma object_text hist o : showable o -> exists ts e,
  time_text ts (o_timestamp (obj_attrs o)) /\ one_line ts /\ time_text e (o_endtime (obj_attrs o)) /\ one_line e /\
  debug_object hist o = Ok (unlines (object_lines hist ts e o)).
Proof.
  intros [[U T E G] B]. destruct (show_time _ T) as (ts & T1 & T2 & T3). destruct (show_time _ E) as (e & E1 & E2 & E3).
  exists ts, e. split; [exact T2|]. split; [exact T3|]. split; [exact E2|]. split; [exact E3|].
  unfold debug_object, print_meta. rewrite T1. cbn [obind].
  set (h := if hist then _ else _).
  assert (H : h = Ok (if hist then nl ++ "  visible=" ++ (if o_visible (obj_attrs o) then "yes" else "no") ++ nl ++ "  endtime=" ++ e else "")).
  { unfold h. destruct hist; [|reflexivity]. rewrite E1. reflexivity. }
  rewrite H. clear h H. cbn [obind]. destruct U as [_ U]. rewrite (c_text_id _ U), (tags_lines _ G).
  assert (A : forall a, unlines (attr_lines hist ts e a) =
    "  id=" ++ print_Z (o_id a) ++ nl ++ "  version=" ++ print_Z (o_version a) ++ nl ++ "  uid=" ++ print_Z (o_uid a)
      ++ nl ++ "  user=|" ++ o_user a ++ "|" ++ nl ++ "  changeset=" ++ print_Z (o_changeset a)
      ++ nl ++ "  timestamp=" ++ ts ++ (if hist then nl ++ "  visible=" ++ (if o_visible a then "yes" else "no") ++ nl ++ "  endtime=" ++ e else "")
      ++ nl ++ "  tags: (count=" ++ print_Z (Z.of_nat (List.length (o_tags a))) ++ ")" ++ nl ++ unlines (map tag_line (o_tags a))).
  { intros a. unfold attr_lines. rewrite unlines_app, unlines_app. cbn [unlines app]. destruct hist; cbn [unlines];
      rewrite !sapp_assoc; reflexivity. }
  rewrite <- A. destruct o as [n|w|r]; cbn [obj_attrs object_lines unlines] in *; f_equal.
  - rewrite !unlines_app. cbn [unlines]. rewrite !sapp_assoc. reflexivity.
  - rewrite !unlines_app. cbn [unlines]. rewrite !sapp_assoc, refs_lines. reflexivity.
  - rewrite !unlines_app. cbn [unlines]. rewrite !sapp_assoc, members_lines by exact B. reflexivity.
Qed.

(* ---- reading a block ---- *)
Lemma many_map A B (f : string -> option B) (g : A -> string) (h : A -> B) (P : A -> Prop) l rest :
  (forall x, P x -> f (g x) = Some (h x)) -> Forall P l -> many f rest = ([], rest) -> many f (app (map g l) rest) = (map h l, rest).
Proof.
  intros F. induction 1 as [|x l H _ IH]; intros R; [exact R|]. cbn [map app many]. rewrite (F x H), (IH R). reflexivity.
Qed.
Lemma no_many A (f : string -> option A) l r : f l = None -> many f (l :: r) = ([], l :: r).
Proof. intros H. cbn [many]. rewrite H. reflexivity. Qed.
Lemma read_tag_line t : no_bar (tkey t) -> read_tag (tag_line t) = Some (tkey t, tvalue t).
Proof.
  intros H. unfold read_tag, tag_line. rewrite after_app.
  change ("| v=|" ++ tvalue t ++ "|") with (String "|" (" v=|" ++ tvalue t ++ "|")). rewrite (split_at_app "|" _ _ H).
  change (String "|" (" v=|" ++ tvalue t ++ "|")) with ("| v=|" ++ (tvalue t ++ "|")). rewrite after_app.
  rewrite without_last_app. reflexivity.
Qed.
Lemma read_ref_line n : read_ref (ref_line n) = Some (print_Z (wn_ref n)).
Proof. apply after_app. Qed.
Lemma read_member_line m : read_member (member_line m) = Some (String (m_type m) "", print_Z (m_ref m), m_role m).
Proof.
  unfold read_member, member_line. rewrite after_app. rewrite after_app.
  change (" role=|" ++ m_role m ++ "|") with (String " " ("role=|" ++ m_role m ++ "|")).
  rewrite split_at_app by (eapply int_no_space; apply print_int).
  change (String " " ("role=|" ++ m_role m ++ "|")) with (" role=|" ++ (m_role m ++ "|")). rewrite after_app, without_last_app. reflexivity.
Qed.
Definition raw_of (hist : bool) (ts e : string) (a : attrs) : raw_attrs :=
  mkRA (print_Z (o_id a)) (print_Z (o_version a)) (print_Z (o_uid a)) (o_user a) (print_Z (o_changeset a)) ts
    (if hist then Some (if o_visible a then "yes" else "no", e) else None)
    (print_Z (Z.of_nat (List.length (o_tags a)))) (map (fun t => (tkey t, tvalue t)) (o_tags a)).
Lemma read_attr_lines hist ts e a rest : Forall (fun t => no_bar (tkey t)) (o_tags a) -> many read_tag rest = ([], rest) ->
  read_attrs (app (attr_lines hist ts e a) rest) = Some (raw_of hist ts e a, rest).
Proof.
  intros T R. unfold read_attrs, attr_lines. rewrite <- !app_assoc. cbn [app].
  rewrite !field_here. rewrite (closed_here "  user=|" (o_user a) "|"). rewrite !field_here.
  assert (H : forall ls, match field "  visible=" (app (if hist then ["  visible=" ++ (if o_visible a then "yes" else "no"); "  endtime=" ++ e] else [])
                                                     (("  tags: (count=" ++ print_Z (Z.of_nat (List.length (o_tags a))) ++ ")") :: ls)) with
                 | Some (vi, ls) => match field "  endtime=" ls with Some (e, ls) => Some (Some (vi, e), ls) | None => None end
                 | None => Some (None, app (if hist then ["  visible=" ++ (if o_visible a then "yes" else "no"); "  endtime=" ++ e] else [])
                                           (("  tags: (count=" ++ print_Z (Z.of_nat (List.length (o_tags a))) ++ ")") :: ls))
                 end = Some (if hist then Some (if o_visible a then "yes" else "no", e) else None,
                             (("  tags: (count=" ++ print_Z (Z.of_nat (List.length (o_tags a))) ++ ")") :: ls))).
  { intros ls. destruct hist; cbn [app]; [rewrite !field_here; reflexivity|]. reflexivity. }
  rewrite H. clear H. rewrite (closed_here "  tags: (count=" (print_Z (Z.of_nat (List.length (o_tags a)))) ")").
  rewrite (many_map _ _ read_tag tag_line (fun t => (tkey t, tvalue t)) (fun t => no_bar (tkey t)) _ _ (fun t => read_tag_line t) T R).
  reflexivity.
Qed.
Lemma raw_shows hist ts e a : time_text ts (o_timestamp a) -> time_text e (o_endtime a) -> shows_attrs hist (raw_of hist ts e a) a.
Proof.
  intros T E. split; cbn [raw_of ra_id ra_version ra_uid ra_user ra_changeset ra_timestamp ra_history ra_count ra_tags]; try apply print_int; auto.
  destruct hist; [|reflexivity]. split; [reflexivity|]. split; [reflexivity|exact E].
Qed.

Definition headers : list string :=
  ["meta:"; "node:"; "way:"; "relation:"; "before_nodes"; "before_ways"; "before_relations"; "after_nodes"; "after_ways"; "after_relations"; "final"].
Definition at_header (ls : list string) : Prop := match ls with [] => True | l :: _ => In l headers end.
Lemma header_stops ls : at_header ls ->
  many read_tag ls = ([], ls) /\ many read_ref ls = ([], ls) /\ many read_member ls = ([], ls) /\ field "  bounds=" ls = None.
Proof.
  destruct ls as [|l r]; [auto|]. cbn [at_header headers In]. intros H.
  repeat destruct H as [<-|H]; [repeat split; reflexivity ..|destruct H].
Qed.
Definition raw_object (hist : bool) (ts e : string) (o : object) : ditem :=
  let a := raw_of hist ts e (obj_attrs o) in
  match o with
  | ONode n => RNode a (printf_f 7 (pos_lon (n_pos n))) (printf_f 7 (pos_lat (n_pos n)))
  | OWay w => RWay a (print_Z (Z.of_nat (List.length (w_nodes w)))) (map (fun n => print_Z (wn_ref n)) (w_nodes w))
  | ORel r => RRelation a (print_Z (Z.of_nat (List.length (r_members r)))) (map (fun m => (String (m_type m) "", print_Z (m_ref m), m_role m)) (r_members r))
  end.
Lemma read_object hist ts e o rest : showable o -> at_header rest ->
  exists l r, object_lines hist ts e o = l :: r /\ In l headers /\ read_item l (app r rest) = Some (raw_object hist ts e o, rest).
Proof.
  intros [A B] R. destruct (header_stops _ R) as (R1 & R2 & R3 & _).
  assert (T : Forall (fun t => no_bar (tkey t)) (o_tags (obj_attrs o))).
  { destruct A as [_ _ _ T]. eapply Forall_impl; [|exact T]. intros t H. apply H. }
  destruct o as [n|w|r]; cbn [object_lines obj_attrs] in *; eexists; eexists; (split; [reflexivity|]); (split; [unfold headers; cbn [In]; tauto|]);
    unfold read_item.
  - cbn [String.eqb Ascii.eqb Bool.eqb]. rewrite <- app_assoc.
    rewrite read_attr_lines; [|exact T|cbn [app]; apply no_many; reflexivity].
    cbn [app]. rewrite !field_here. reflexivity.
  - cbn [String.eqb Ascii.eqb Bool.eqb]. rewrite <- app_assoc.
    rewrite read_attr_lines; [|exact T|cbn [app]; apply no_many; reflexivity].
    cbn [app]. rewrite field_here. rewrite (field_here "  nodes:" "").
    rewrite (many_map _ _ read_ref ref_line (fun n => print_Z (wn_ref n)) (fun _ => True) _ _ (fun n _ => read_ref_line n)); [|apply Forall_forall; auto|exact R2].
    reflexivity.
  - cbn [String.eqb Ascii.eqb Bool.eqb]. rewrite <- app_assoc.
    rewrite read_attr_lines; [|exact T|cbn [app]; apply no_many; reflexivity].
    cbn [app]. rewrite (closed_here "  members: (count=" (print_Z (Z.of_nat (List.length (r_members r)))) ")").
    rewrite (many_map _ _ read_member member_line (fun m => (String (m_type m) "", print_Z (m_ref m), m_role m)) (fun _ => True) _ _ (fun m _ => read_member_line m)); [|apply Forall_forall; auto|exact R3].
    reflexivity.
Qed.
Lemma object_shows hist ts e o : showable o -> time_text ts (o_timestamp (obj_attrs o)) -> time_text e (o_endtime (obj_attrs o)) ->
  shows_object hist (raw_object hist ts e o) o.
Proof.
  intros [_ B] T E. destruct o as [n|w|r]; cbn [raw_object obj_attrs] in *.
  - apply so_node; [apply raw_shows; assumption|apply print_coordinate, B|apply print_coordinate, B].
  - apply so_way; [apply raw_shows; assumption|apply print_int|].
    induction (w_nodes w) as [|x l IH]; constructor; [apply print_int|exact IH].
  - apply so_relation; [apply raw_shows; assumption|apply print_int|]. clear B.
    induction (r_members r) as [|x l IH]; constructor; [|exact IH]. split; [reflexivity|]. split; [apply print_int|reflexivity].
Qed.
Lemma object_one_line hist ts e o : showable o -> one_line ts -> one_line e -> Forall one_line (object_lines hist ts e o).
Proof.
  intros [[U _ _ G] B] T E.
  assert (L : forall n, one_line (print_Z n)) by (intros n; eapply int_line; apply print_int).
  assert (A : Forall one_line (attr_lines hist ts e (obj_attrs o))).
  { unfold attr_lines. destruct U as [U _].
    repeat (apply Forall_app; split); repeat constructor;
      try (repeat first [apply one_line_app | apply L | exact U | exact T | exact E | apply lit_line; reflexivity]).
    - destruct hist; repeat constructor; apply one_line_app; try exact E; try (apply lit_line; reflexivity). destruct (o_visible _); apply lit_line; reflexivity.
    - apply Forall_map. eapply Forall_impl; [|exact G]. intros t ((K & _) & _ & V & _). unfold tag_line.
      repeat first [apply one_line_app | exact K | exact V | apply lit_line; reflexivity]. }
  destruct o as [n|w|r]; cbn [object_lines obj_attrs] in *; constructor; try (apply lit_line; reflexivity); apply Forall_app; (split; [exact A|]).
  - destruct B as [X Y]. repeat constructor; apply one_line_app; try (apply lit_line; reflexivity); eapply coordinate_line; apply print_coordinate; assumption.
  - constructor; [apply one_line_app; [apply lit_line; reflexivity|apply L]|]. constructor; [apply lit_line; reflexivity|].
    apply Forall_map, Forall_forall. intros x _. apply one_line_app; [apply lit_line; reflexivity|apply L].
  - constructor; [repeat first [apply one_line_app | apply L | apply lit_line; reflexivity]|].
    apply Forall_map. eapply Forall_impl; [|exact B]. intros m (N & R & _). unfold member_line.
    apply one_line_app; [apply lit_line; reflexivity|]. apply one_line_cons; [exact N|].
    repeat first [apply one_line_app | apply L | exact R | apply lit_line; reflexivity].
Qed.
