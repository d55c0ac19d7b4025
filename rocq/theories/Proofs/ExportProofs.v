(** Proofs about the scripts that export fixed sets of shapefiles. *)
From Verif Require Import Base.Prelude Base.Decimal Model.Osm Model.Geom Model.Shapefile Model.Handler Model.Unicode Model.Js Model.Osmjs Model.Osm2shape Model.Scripts Model.Export
  Spec.UnicodeSpec Spec.JsSpec Spec.Osm2shapeSpec Spec.ScriptsSpec Spec.ExportSpec Proofs.UnicodeProofs Proofs.JsOutProofs Proofs.Osm2shapeProofs Proofs.Osm2shape2Proofs Proofs.ScriptsProofs.
Local Open Scope Z_scope.

Definition file_parts (x : xfile) : list fpart := let '(_, k, cols) := x in DType k :: map (fun c => let '(n, t, z) := c in DColumn n t z) cols.
Definition file_pair (x : xfile) : jstr * shpf := let '(n, k, cols) := x in (utf16 n, mkShpf (utf16 n) (kind_name k) (map colj cols)).
Definition jrow (x : xrow) : jstr * xobj := (utf16 (fst x), map (fun p => (utf16 (fst p), snd p)) (snd x)).
Lemma parts_columns n k cols : columns (file_parts (n, k, cols)) = cols.
Proof. unfold columns, file_parts. cbn [flat_map app]. induction cols as [|[[m t] z] cols IH]; [reflexivity|]. cbn [map flat_map app]. f_equal. exact IH. Qed.
Lemma parts_kind n k cols : file_kind (file_parts (n, k, cols)) = k.
Proof.
  unfold file_kind, file_parts. rewrite final_cons. match goal with |- context [final ?f ?l] => assert (E : final f l = None) end.
  { induction cols as [|[[m t] z] cols IH]; [reflexivity|]. cbn [map]. rewrite final_cons, IH. reflexivity. }
  rewrite E. reflexivity.
Qed.
Lemma open_xfile n k cols : file_ok (file_parts (n, k, cols)) -> exists s, open_file (snd (file_pair (n, k, cols))) = Ok s /\ fresh (file_parts (n, k, cols)) s.
Proof.
  intros F. destruct (open_file_ok n _ F) as (s & E & Fr). exists s. split; [|exact Fr]. rewrite <- E. unfold open_file, filej, file_pair. cbn [snd sh_gtype sh_columns].
  now rewrite parts_kind, parts_columns.
Qed.
Lemma cells_own (cells : list (chars * jsattr)) (n : chars) : text n -> Forall (fun p : chars * jsattr => text (fst p)) cells -> match own (utf16 n) (snd (jrow ([], cells))) with Some v => v | None => ANull end = cell_of cells n.
Proof.
  intros T. unfold jrow, cell_of. cbn [snd]. induction 1 as [|[m v] cells H F IH]; [reflexivity|]. cbn [map own find fst snd] in *. rewrite (jeqb_utf16 m n H T).
  destruct (ceq m n); [reflexivity|exact IH].
Qed.

Section Generic.
  Variable shape : this -> outcome shp.
  Variable adds : rtype -> attrs -> outcome (list (jstr * xobj)).
  Variable files : list xfile.
  Variable says : rtype -> Z -> list (chars * chars) -> list xrow -> Prop.
  Variable fine : list (chars * chars) -> Prop.
  Hypothesis Names : NoDup (map (fun f => fst (fst f)) files).
  Hypothesis Fok : Forall (fun f => text (fst (fst f)) /\ file_ok (file_parts f)) files.
  Hypothesis Adds : forall t a kvs, o_tags a = tags_of kvs -> fine kvs -> - max_exact <= o_id a <= max_exact ->
    exists l, adds t a = Ok (map jrow l) /\ says t (o_id a) kvs l /\
      Forall (fun x : xrow => exists k cols, In (fst x, k, cols) files /\ Forall (fun p : chars * jsattr => text (fst p)) (snd x) /\
                         Forall (fun c => usable (column_field c) (cell_of (snd x) (fst (fst c)))) cols) l.

  Definition xinv (w : xw) : Prop :=
    forall n k cols, In (n, k, cols) files -> exists s c, own (utf16 n) (x_open w) = Some s /\
      ss_type s = kind_shape k /\ ss_fields s = map column_field cols /\ ss_cur s = Some c /\
      flat_map sf_shapes (all_files s) = shapes_of shape n (x_rows w).
  Lemma file_text n k cols : In (n, k, cols) files -> text n /\ Forall column_ok cols.
  Proof. intros I. rewrite Forall_forall in Fok. destruct (Fok _ I) as [T [H _]]. rewrite parts_columns in H. split; [exact T|exact H]. Qed.
  Lemma file_unique n k cols k' cols' : In (n, k, cols) files -> In (n, k', cols') files -> k = k' /\ cols = cols'.
  Proof.
    clear Adds Fok. revert Names. induction files as [|[[m q] r] l IH]; intros N I J; [destruct I|]. cbn [map fst] in N. inversion N as [|? ? N1 N2]; subst.
    assert (X : forall a b, In (n, a, b) l -> m <> n) by (intros a b H ->; apply N1; apply in_map_iff; exists (n, a, b); auto).
    destruct I as [I|I], J as [J|J].
    - inversion I; inversion J; subst. auto.
    - inversion I; subst. exfalso. exact (X _ _ J eq_refl).
    - inversion J; subst. exfalso. exact (X _ _ I eq_refl).
    - auto.
  Qed.
  Lemma add_one o (x : xrow) w k cols : In (fst x, k, cols) files -> Forall (fun p : chars * jsattr => text (fst p)) (snd x) ->
    Forall (fun c => usable (column_field c) (cell_of (snd x) (fst (fst c)))) cols ->
    (shape o = Throw EIllegalGeometry \/ exists p, shape o = Ok p /\ 0 <= s_vertices p < 1073741824) -> xinv w ->
    exists w', x_add shape (fst (jrow x)) o (snd (jrow x)) w = Ok w' /\ xinv w' /\
      ((~ fits shape k o /\ x_rows w' = x_rows w) \/ exists r, x_rows w' = x_rows w ++ [r] /\ row_is shape files o x r).
  Proof.
    intros I Tx U G FI. destruct (file_text _ _ _ I) as [T Co]. unfold x_add. cbn [jrow fst].
    destruct (FI _ k cols I) as (s & c & Os & Ts & Fs & Cs & Ss). rewrite Os.
    assert (Same : xinv (mkX (set_own (utf16 (fst x)) s (x_open w)) (x_rows w))).
    { intros m q r J. cbn [x_open x_rows]. destruct (file_text _ _ _ J) as [Tm _]. rewrite own_set, (jeqb_utf16 _ m T Tm). destruct (ceq (fst x) m) eqn:E; [|now apply FI].
      apply ceq_spec in E. subst m. destruct (FI _ _ _ J) as (s1 & c1 & O1 & H1). rewrite Os in O1. inversion O1; subst s1. exists s, c1. split; [reflexivity|exact H1]. }
    destruct G as [G|(p & G & V)].
    { rewrite G. cbn. rewrite app_nil_r. eexists. split; [reflexivity|]. split; [exact Same|]. left. split; [|reflexivity]. intros (q & H & _). congruence. }
    rewrite G. destruct (shptype_eq (s_type p) (ss_type s)) as [Et|Nt].
    2:{ unfold add_geometry. rewrite Cs. destruct (shptype_eq (s_type p) (ss_type s)) as [Et|_]; [contradiction|]. cbn. rewrite app_nil_r.
        eexists. split; [reflexivity|]. split; [exact Same|]. left. split; [|reflexivity]. intros (q & H & Hq). rewrite G in H. inversion H; subst. congruence. }
    assert (Fit : fits shape k o) by (exists p; split; [exact G|congruence]).
    destruct (shapes_added s c p Cs Et (length_defined k p ltac:(congruence) V)) as (s' & c' & Ag & Ts' & Fs' & Cs' & Ss'). rewrite Ag.
    set (obj := snd (jrow x)).
    assert (Val : forall y, In y cols -> value_of (fun n0 => own (v8_New n0) obj) (column_field y) = cell_of (snd x) (fst (fst y))).
    { intros y Iy. rewrite Forall_forall in Co. specialize (Co y Iy). unfold value_of. rewrite column_name. destruct y as [[n t] z]. cbn [fst]. destruct Co as (Pn & _).
      rewrite (v8_name n Pn). exact (cells_own (snd x) n (proj1 Pn) Tx). }
    destruct (add_ok (ss_fields s) (fun n0 => own (v8_New n0) obj)) as (l & Ea & La & Na).
    { rewrite Fs. apply Forall_map. apply Forall_forall. intros y Iy. rewrite (Val y Iy). rewrite Forall_forall in U. now apply U. }
    rewrite Ea. cbn [obind]. eexists. split; [reflexivity|]. split; [|right; eexists; split; [reflexivity|]].
    - intros m q r J. cbn [x_open x_rows]. destruct (file_text _ _ _ J) as [Tm _]. rewrite own_set, (jeqb_utf16 _ m T Tm). destruct (ceq (fst x) m) eqn:E.
      + apply ceq_spec in E. subst m. destruct (file_unique _ _ _ _ _ I J) as [<- <-]. exists s', c'. split; [reflexivity|]. rewrite Ts', Fs'. repeat split; auto.
        rewrite Ss', Ss. unfold shapes_of. rewrite flat_map_app. cbn [flat_map or_file or_object]. rewrite G, app_nil_r.
        destruct (list_eq_dec Z.eq_dec (utf16 (fst x)) (utf16 (fst x))); [reflexivity|congruence].
      + destruct (FI m q r J) as (sm & cm & Om & H1 & H2 & H3 & H4). exists sm, cm. repeat split; auto. rewrite H4. unfold shapes_of. rewrite flat_map_app.
        cbn [flat_map or_file]. assert (Nm : utf16 (fst x) <> utf16 m) by (intros X; rewrite <- (jeqb_utf16 _ m T Tm) in E; apply jeqb_spec in X; congruence).
        destruct (list_eq_dec Z.eq_dec (utf16 (fst x)) (utf16 m)); [contradiction|]. now rewrite !app_nil_r.
    - unfold row_is. cbn [or_file or_object or_values]. repeat split. exists k, cols. split; [exact I|]. split; [exact Fit|]. rewrite La, Fs, map_length. split; [reflexivity|].
      intros i y Ey. destruct (Na i (column_field y)) as (d & Ed & W); [rewrite Fs, nth_error_map, Ey; reflexivity|]. exists d. split; [exact Ed|].
      rewrite (Val y (nth_error_In _ _ Ey)) in W. exact W.
  Qed.
  Lemma adds_ok o l : Forall (fun x : xrow => exists k cols, In (fst x, k, cols) files /\ Forall (fun p : chars * jsattr => text (fst p)) (snd x) /\
                         Forall (fun c => usable (column_field c) (cell_of (snd x) (fst (fst c)))) cols) l ->
    (shape o = Throw EIllegalGeometry \/ exists p, shape o = Ok p /\ 0 <= s_vertices p < 1073741824) -> forall w, xinv w ->
    exists w' r1, x_adds shape o (map jrow l) w = Ok w' /\ xinv w' /\ x_rows w' = x_rows w ++ r1 /\ rows_from shape files o l r1.
  Proof.
    intros F G. induction F as [|x l (k & cols & I & Tx & U) F IH]; intros w R.
    - exists w, []. cbn. rewrite app_nil_r. repeat split; auto. constructor.
    - destruct (add_one o x w k cols I Tx U G R) as (w1 & E1 & R1 & C1). destruct (IH w1 R1) as (w2 & r2 & E2 & R2 & W2 & F2).
      cbn [map x_adds]. destruct (jrow x) as [f obj] eqn:Ej. cbn [fst snd] in E1. rewrite E1. cbn [obind]. rewrite E2.
      destruct C1 as [[N W1]|(r & W1 & Ri)].
      + exists w2, r2. rewrite W2, W1. repeat split; auto. now apply (xf_unfit shape files o x k cols).
      + exists w2, (r :: r2). rewrite W2, W1, <- app_assoc. repeat split; auto. now apply xf_row.
  Qed.
  Definition ok_call (c : callback) : Prop :=
    c <> CFinal /\ forall t o a, subject c = Some (t, o, a) -> - max_exact <= o_id a <= max_exact /\ (exists kvs, o_tags a = tags_of kvs /\ fine kvs) /\
      (shape o = Throw EIllegalGeometry \/ exists p, shape o = Ok p /\ 0 <= s_vertices p < 1073741824).
  Lemma call_split c w : c <> CFinal -> (subject c = None /\ x_call shape adds c w = Ok w) \/ exists t o a, subject c = Some (t, o, a) /\ x_call shape adds c w = x_object shape adds t o a w.
  Proof.
    intros N. destruct c; try (left; split; reflexivity); try contradiction.
    - destruct o as [x|x|x]; [right; do 3 eexists; split; reflexivity|right; do 3 eexists; split; reflexivity|left; split; reflexivity].
    - right. do 3 eexists. split; reflexivity.
  Qed.
  Lemma calls_run cs : Forall ok_call cs -> forall w, xinv w ->
    exists w' rs, x_calls shape adds cs w = Ok w' /\ xinv w' /\ x_rows w' = x_rows w ++ rs /\ exported shape files says cs rs.
  Proof.
    induction 1 as [|c cs [N O] F IH]; intros w R.
    - exists w, []. cbn. rewrite app_nil_r. repeat split; auto. constructor.
    - cbn [x_calls]. destruct (call_split c w N) as [[S E]|(t & o & a & S & E)]; rewrite E.
      + cbn [obind]. destruct (IH w R) as (w' & rs & E' & R' & W & X). exists w', rs. repeat split; auto. now apply xa_other.
      + destruct (O t o a S) as (B & (kvs & Tg & Fi) & G). unfold x_object. destruct (Adds t a kvs Tg Fi B) as (l & Ea & Sa & Fa). rewrite Ea. cbn [obind].
        destruct (adds_ok o l Fa G w R) as (w1 & r1 & E1 & R1 & W1 & F1). rewrite E1. cbn [obind]. destruct (IH w1 R1) as (w2 & rs & E2 & R2 & W2 & X).
        exists w2, (r1 ++ rs). rewrite W2, W1, <- app_assoc. repeat split; auto. now apply (xa_object shape files says c t o a kvs l).
  Qed.
  Lemma calls_app c1 : forall c2 w, x_calls shape adds (c1 ++ c2) w = let! w' := x_calls shape adds c1 w in x_calls shape adds c2 w'.
  Proof. induction c1 as [|c c1 IH]; intros c2 w; [reflexivity|]. cbn [app x_calls]. destruct (x_call shape adds c w); cbn [obind]; auto. Qed.
  Lemma start_ok : exists os, open_files (map file_pair files) = Ok os /\ xinv (mkX os []).
  Proof.
    destruct (open_files_ok (map file_pair files)) as (os & Eo & Oo).
    { apply Forall_map. revert Fok. apply Forall_impl. intros [[n k] cols] [_ F]. destruct (open_xfile n k cols F) as (s & E & _). eauto. }
    exists os. split; [exact Eo|]. intros n k cols I. cbn [x_open x_rows].
    assert (Ow : own (utf16 n) (map file_pair files) = Some (snd (file_pair (n, k, cols)))).
    { clear -I Names Fok. revert Names Fok I. induction files as [|[[m q] r] l IH]; intros N F I; [destruct I|]. inversion N as [|? ? N1 N2]; subst. inversion F as [|? ? [Tm _] F2]; subst.
      cbn [map own file_pair]. cbn [fst] in Tm. destruct I as [I|I].
      - inversion I; subst. now rewrite jeqb_refl.
      - assert (Tn : text n) by (rewrite Forall_forall in F2; exact (proj1 (F2 _ I))). rewrite (jeqb_utf16 m n Tm Tn). destruct (ceq m n) eqn:E; [|now apply IH].
        apply ceq_spec in E. subst m. exfalso. apply N1. apply in_map_iff. exists (n, k, cols). auto. }
    destruct (Oo _ _ Ow) as (s & Os & Es). rewrite Forall_forall in Fok. destruct (Fok _ I) as [_ F]. destruct (open_xfile n k cols F) as (s2 & E2 & Fr).
    rewrite Es in E2. inversion E2; subst s2. destruct Fr as (F1 & F2 & F3 & c & F4 & F5). rewrite parts_kind in F1. rewrite parts_columns in F2.
    exists s, c. repeat split; auto. unfold all_files, close. rewrite F4. cbn [ss_done]. rewrite F3. cbn. now rewrite F5.
  Qed.
  Theorem run_exports cs : Forall ok_call cs -> exists w, x_run shape adds (map file_pair files) (cs ++ [CFinal]) = Ok w /\ exported shape files says cs (x_rows w) /\
    forall n k cols, In (n, k, cols) files -> exists s, own (utf16 n) (x_open w) = Some s /\ ss_type s = kind_shape k /\ ss_fields s = map column_field cols /\ ss_cur s = None /\
      flat_map sf_shapes (ss_done s) = shapes_of shape n (x_rows w).
  Proof.
    intros F. destruct start_ok as (os & Eo & R). unfold x_run. rewrite Eo. cbn [obind]. destruct (calls_run cs F _ R) as (w & rs & E & R' & W & X).
    rewrite calls_app, E. cbn [obind x_calls x_call]. eexists. split; [reflexivity|]. cbn [x_rows x_open] in *. rewrite W in *. cbn [app] in *. split; [exact X|].
    intros n k cols I. destruct (R' n k cols I) as (s & c & Os & H1 & H2 & H3 & H4). exists (close s). rewrite own_map, Os. split; [reflexivity|].
    unfold close at 1 2 3. rewrite H3. cbn [ss_type ss_fields ss_cur]. repeat split; auto. rewrite end_shapes, H4, W. reflexivity.
  Qed.
End Generic.
