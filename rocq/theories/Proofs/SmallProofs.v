(** Failing system calls, failing readers and limits. *)
From Verif Require Import Base.Prelude Base.Decimal Model.Osm Model.Time Model.Attr Model.Store Model.OsmFile Model.Shapefile Model.Handler Model.Assembler Model.Convert
  Model.Members Model.Xml Spec.TimeSpec Spec.OsmFileSpec Spec.HandlerSpec Proofs.TimeProofs Proofs.ConvertProofs.

(* ---- opening files ---- *)
Lemma open_result s o o' ev e : (forall r w, r_pipe s = Some (r, w) -> r <> w) ->
  open_for_input s o = (o', ev, e) \/ open_for_output s o = (o', ev, e) ->
  of_type o' = of_type o /\ of_enc o' = of_enc o /\ of_name o' = of_name o /\
  (e = None /\ (In (of_fd o') (fds ev) \/ of_name o = ""%string /\ ev = [] /\ (of_fd o' = 0 \/ of_fd o' = 1)) \/
   e = Some ESystem /\ o' = o /\ kids ev = []).
Proof.
  intros NE H.
  assert (X : forall i, execute i s o = (o', ev, e) -> of_type o' = of_type o /\ of_enc o' = of_enc o /\ of_name o' = of_name o /\
    (e = None /\ In (of_fd o') (fds ev) \/ e = Some ESystem /\ o' = o /\ kids ev = [])).
  { intros i. unfold execute. destruct (r_pipe s) as [[r w]|] eqn:P; [destruct (r_fork s) as [pid|]|]; intros E; injection E as <- <- <-; cbn [of_type of_enc of_name of_fd];
      repeat (split; [reflexivity|]); [left|right|right]; auto. split; [reflexivity|]. specialize (NE r w eq_refl).
    unfold fds. cbn [fold_left fds_step without]. destruct i.
    - rewrite (proj2 (Z.eqb_neq w r)) by auto. now left.
    - rewrite Z.eqb_refl, (proj2 (Z.eqb_neq r w)) by auto. now left. }
  assert (P : forall d, d = 0 \/ d = 1 -> open_plain d s o = (o', ev, e) -> of_type o' = of_type o /\ of_enc o' = of_enc o /\ of_name o' = of_name o /\
    (e = None /\ (In (of_fd o') (fds ev) \/ of_name o = ""%string /\ ev = [] /\ (of_fd o' = 0 \/ of_fd o' = 1)) \/ e = Some ESystem /\ o' = o /\ kids ev = [])).
  { intros d D. unfold open_plain. destruct (String.eqb_spec (of_name o) "") as [N|N]; [|destruct (r_open s) as [fd|]]; intros E; injection E as <- <- <-; cbn [of_type of_enc of_name of_fd];
      repeat (split; [reflexivity|]); [left|left|right]; auto 6. split; [reflexivity|]. left. left. reflexivity. }
  assert (X' : forall i, execute i s o = (o', ev, e) -> of_type o' = of_type o /\ of_enc o' = of_enc o /\ of_name o' = of_name o /\
    (e = None /\ (In (of_fd o') (fds ev) \/ of_name o = ""%string /\ ev = [] /\ (of_fd o' = 0 \/ of_fd o' = 1)) \/ e = Some ESystem /\ o' = o /\ kids ev = [])).
  { intros i E. specialize (X i E). tauto. }
  destruct H as [H|H]; unfold open_for_input, open_for_output in H.
  - destruct (String.eqb (fe_decompress (of_enc o)) ""); [destruct (is_url (of_name o))|]; eauto.
  - destruct (String.eqb (fe_compress (of_enc o)) ""); eauto.
Qed.

(* ---- memory ---- *)
Lemma no_memory (V : Type) (zv : V) sz max_id f :
  fa_new (V:=V) sz max_id false = Throw EBadAlloc /\ ma_new zv sz false = Throw EBadAlloc /\ mf_open (V:=V) sz f false = Throw EBadAlloc.
Proof. repeat split. Qed.

(* ---- fields of shapefiles ---- *)
Lemma field_limits name ty w d : (1 <= slen name <= 11 -> w <= 255 -> field_new name ty w d = Ok (mkField name ty w d)) /\
  (slen name = 0 \/ 11 < slen name \/ 255 < w -> field_new name ty w d = Throw EInvalidArgument).
Proof.
  unfold field_new, max_dbf_field_name_length, max_dbf_field_length. rewrite !Z.gtb_ltb.
  destruct (String.eqb_spec name "") as [->|N]; cbn [orb].
  - split; [cbn; lia|reflexivity].
  - assert (1 <= slen name) by (unfold slen; destruct name; [congruence|cbn [String.length]; lia]).
    destruct (Z.ltb_spec 11 (slen name)); [split; [lia|reflexivity]|]. destruct (Z.ltb_spec 255 w); [split; [lia|reflexivity]|split; [reflexivity|lia]].
Qed.

(* ---- a file of relations that cannot be read to its end ---- *)
Lemma members_never_stops : never_stops members_pass2.
Proof.
  intros c s s' E. unfold members_pass2 in E.
  assert (ND : forall ms f i, dump_members ms f i <> Throw EStopReading).
  { induction ms as [|m r IH]; intros f i; cbn [dump_members]; [discriminate|]. destruct f; [discriminate|]. specialize (IH f (i + 1)). destruct (dump_members r f (i + 1)); cbn [obind]; congruence. }
  assert (NR : forall i b, dump_relation i b <> Throw EStopReading).
  { intros i b. unfold dump_relation. destruct (ri_rel i); [|discriminate]. pose proof (ND (r_members r) (ri_members i) 0). destruct (dump_members (r_members r) (ri_members i) 0); cbn [obind]; congruence. }
  assert (NL : forall l, dump_relations l <> Throw EStopReading).
  { induction l as [|i r IH]; cbn [dump_relations]; [discriminate|]. pose proof (NR i false). destruct (dump_relation i false); cbn [obind]; try congruence. destruct (dump_relations r); cbn [obind]; congruence. }
  assert (NE : forall es s, members_events es s <> Throw EStopReading).
  { induction es as [|e r IH]; intros x; cbn [members_events]; [discriminate|]. destruct (members_event e x) eqn:M; cbn [obind]; [apply IH| |discriminate|discriminate].
    intros C. injection C as ->. destruct e; cbn [members_event] in M; try discriminate M.
    - pose proof (NR (mkRI (Some r0) ms 0) true). destruct (dump_relation _ true); cbn [obind] in M; congruence.
    - pose proof (NL (a_rels (clean_assembled (fst x)))). destruct (dump_relations _); cbn [obind] in M; congruence. }
  assert (NA : forall o ms rels, add_object o ms rels <> Throw EStopReading).
  { induction ms as [|m r IH]; intros rels; cbn [add_object]; [discriminate|].
    destruct (negb _); [discriminate|]. destruct (nth_error _ _) as [i|]; [|discriminate]. destruct (ri_rel i) as [rel|] eqn:RR; [|discriminate].
    unfold ri_add_member. rewrite RR. destruct (Nat.ltb (mi_pos m) (List.length (r_members rel))); [|discriminate]. destruct (ri_need i <=? 0); cbn [obind]; [discriminate|].
    match goal with |- obind (add_object o r ?l) _ <> _ => pose proof (IH l) as Q; destruct (add_object o r l) as [[]| | |]; cbn [obind]; congruence end. }
  destruct (pass2 any_type c (fst s)) as [x|e| |] eqn:P; cbn [obind] in E; try discriminate E.
  - pose proof (NE (snd x) (fst x, snd s)). destruct (members_events _ _); congruence.
  - injection E as _ ->. destruct c; cbn [pass2] in P; try discriminate P.
    destruct (any_type (obj_type o)); [|discriminate P]. unfold find_and_add in P. destruct (equal_range _ _) as [|m l]; cbn [obind] in P; [discriminate P|].
      pose proof (NA o (m :: l) (a_rels (fst s))). destruct (add_object _ _ _) as [[]| | |]; cbn [obind] in P; congruence.
Qed.
Lemma members_failed srt gs e : (forall g, In g gs -> well_typed g) -> e <> EStopReading -> exists h, snd (relation_members srt (gs, Throw e)) = Some h.
Proof.
  intros W N. unfold relation_members. destruct (input_read (pass1 any_relation any_member srt) (gs, Throw e) (asm_new any_type)) as [[a [h|]] b]; [exists h; reflexivity|].
  destruct (parse_fails _ members_pass2 gs e (a, ""%string) members_never_stops N W) as (h & E & _). exists h. unfold input_read. cbn [fst snd].
  destruct (parse members_pass2 gs (Some e) (a, ""%string)) as [st x]. cbn [snd] in *. exact E.
Qed.

(* ---- texts of times ---- *)
Lemma year_at_least n k : days_before_year k <= n <-> k <= year_index n.
Proof.
  pose proof (year_index_spec n) as S. split; intros H.
  - destruct (Z.le_gt_cases k (year_index n)); auto. pose proof (dby_mono (year_index n + 1) k). lia.
  - pose proof (dby_mono k (year_index n) H). lia.
Qed.
Lemma iso_defined t : to_iso t = UB <-> t < -67768040609740800 \/ 67768036191676799 < t.
Proof.
  unfold to_iso. destruct (Z.eqb_spec t 0) as [->|N]; [split; [discriminate|lia]|].
  assert (F : gmtime_fits t = true <-> -67768040609740800 <= t <= 67768036191676799).
  { unfold gmtime_fits, in_i32b. rewrite gmtime_eq. cbn [tm_year].
    assert (Y : d_year (gm_date (t / 86400)) = year_index (t / 86400 + epoch_days) + 1) by (unfold gm_date; destruct (split_month _ _ _); reflexivity). rewrite Y.
    pose proof (year_at_least (t / 86400 + epoch_days) (-2147481749)) as L1. pose proof (year_at_least (t / 86400 + epoch_days) 2147485547) as L2.
    change (days_before_year (-2147481749)) with (-784351602710) in L1. change (days_before_year 2147485547) with 784352989899 in L2.
    unfold epoch_days, int32_min, int32_max in *. rewrite Bool.andb_true_iff, !Z.leb_le. lia. }
  destruct (gmtime_fits t).
  - split; [|intros; destruct F as [F _]; specialize (F eq_refl); lia]. destruct (Z.of_nat _ <? _); discriminate.
  - split; [intros _|reflexivity]. destruct (Z.le_gt_cases (-67768040609740800) t); [|lia]. destruct (Z.le_gt_cases t 67768036191676799); [|lia]. destruct F as [_ F]. discriminate F. lia.
Qed.

(* ---- XML ---- *)
Lemma ok_inj A (a b : A) : Ok a = Ok b -> a = b.
Proof. now injection 1. Qed.
Lemma write_failed L (lib : L -> wcall -> L * bool) free l ft g b os : snd (write_xml lib free l ft g b os) <> Ok tt -> snd (fst (write_xml lib free l ft g b os)) = false.
Proof.
  unfold write_xml. destruct (xml_calls ft g b os) as [cs| | |]; try reflexivity. destruct (exec_calls lib l cs) as [l' [[]| | |]]; try reflexivity.
  destruct (free l'). cbn. congruence.
Qed.
Lemma type_attributes ft g b os cs v : xml_calls ft g b os = Ok cs -> In (WAttr "type" v) cs ->
  exists r m, In (ORel r) os /\ In m (r_members r) /\
    (m_type m = "n"%char /\ v = "node"%string \/ m_type m = "w"%char /\ v = "way"%string \/ m_type m = "r"%char /\ v = "relation"%string \/
     ~ In (m_type m) ["n"; "w"; "r"]%char /\ v = "unknown"%string).
Proof.
  intros E H. unfold xml_calls in E. destruct (xml_objects ft None os) as [x| | |] eqn:X; cbn [obind] in E; try discriminate E. apply ok_inj in E. subst cs.
  assert (OT : forall a b, ~ In (WAttr "type" v) (open_close_op_tag a b)).
  { intros a c C. unfold open_close_op_tag in C. destruct (op_eqb a c); [destruct C|]. apply in_app_or in C as [C|C]; [destruct c; [destruct C as [C|[]]; discriminate C|destruct C]|].
    destruct a as [a|]; [|destruct C]. unfold op_element in C. repeat match type of C with context [if ?y then _ else _] => destruct y end; cbn in C; try tauto; destruct C as [C|[]]; discriminate C. }
  assert (HX : In (WAttr "type" v) (fst x)).
  { apply in_app_or in H as [H|H].
    - exfalso. unfold xml_init in H. apply in_app_or in H as [H|H]; [|destruct (bounds_defined b)]; cbn in H; repeat (destruct H as [H|H]; [discriminate H|]); exact H.
    - apply in_app_or in H as [H|H]; auto. exfalso. apply in_app_or in H as [H|H]; [destruct (Pbf.ft_eqb ft FtChange); [exact (OT _ _ H)|exact H]|]. destruct H as [H|[]]; discriminate H. }
  clear H. revert X HX. generalize (@None ascii). revert x. induction os as [|o os IH]; intros x last X HX; cbn [xml_objects] in X.
  - injection X as <-. destruct HX.
  - destruct (write_object ft o) as [c| | |] eqn:W; cbn [obind] in X; try discriminate X.
    destruct (xml_objects ft _ os) as [y| | |] eqn:Y; cbn [obind] in X; try discriminate X. apply ok_inj in X; subst x. cbn [fst] in HX.
    apply in_app_or in HX as [HX|HX]; [exfalso; exact (OT _ _ HX)|]. apply in_app_or in HX as [HX|HX].
    2: { destruct (IH y _ Y HX) as (r & m & I & J). exists r, m. split; [right|]; auto. }
    clear IH Y.
    assert (NM : forall a m, write_meta ft a = Ok m -> ~ In (WAttr "type" v) m).
    { intros a m M C. unfold write_meta in M. destruct (if o_timestamp a =? 0 then _ else _) as [ts| | |] eqn:T; cbn [obind] in M; try discriminate M. apply ok_inj in M. subst m.
      assert (~ In (WAttr "type" v) ts).
      { destruct (o_timestamp a =? 0); [injection T as <-; intros []|]. destruct (to_iso (o_timestamp a)); cbn [obind] in T; try discriminate T. injection T as <-. intros [Z|[]]; discriminate Z. }
      repeat (apply in_app_or in C as [C|C]); repeat match type of C with context [if ?y then _ else _] => destruct y end; cbn in C; try tauto; repeat (destruct C as [C|C]; [discriminate C|]); exact C. }
    assert (NT : forall ts, ~ In (WAttr "type" v) (write_tags ts)).
    { intros ts C. apply in_flat_map in C as (u & _ & C). cbn in C. repeat (destruct C as [C|C]; [discriminate C|]). exact C. }
    destruct o as [n|w|r]; cbn [write_object] in W; destruct (write_meta ft _) as [m| | |] eqn:M; cbn [obind] in W; try discriminate W; apply ok_inj in W; subst c; apply NM in M.
    + exfalso. repeat (apply in_app_or in HX as [HX|HX]); [destruct HX as [HX|[]]; discriminate HX|tauto| |exact (NT _ HX)|destruct HX as [HX|[]]; discriminate HX].
      unfold position_calls in HX. destruct (pos_defined (n_pos n)); cbn in HX; repeat (destruct HX as [HX|HX]; [discriminate HX|]); exact HX.
    + exfalso. repeat (apply in_app_or in HX as [HX|HX]); [destruct HX as [HX|[]]; discriminate HX|tauto| |exact (NT _ HX)|destruct HX as [HX|[]]; discriminate HX].
      apply in_flat_map in HX as (u & _ & C). cbn in C. repeat (destruct C as [C|C]; [discriminate C|]). exact C.
    + repeat (apply in_app_or in HX as [HX|HX]); [destruct HX as [HX|[]]; discriminate HX|tauto| |exfalso; exact (NT _ HX)|destruct HX as [HX|[]]; discriminate HX].
      apply in_flat_map in HX as (u & I & C). exists r, u. split; [now left|]. split; [exact I|]. cbn in C. destruct C as [C|C]; [discriminate C|].
      destruct C as [C|C]; [|repeat (destruct C as [C|C]; [discriminate C|]); destruct C]. injection C as <-. unfold type_name.
      destruct (Ascii.eqb_spec (m_type u) "n"); [auto|]. destruct (Ascii.eqb_spec (m_type u) "w"); [auto|]. destruct (Ascii.eqb_spec (m_type u) "r"); [auto|].
      right. right. right. split; [|reflexivity]. cbn. intuition congruence.
Qed.
