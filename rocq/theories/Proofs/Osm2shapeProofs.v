(** Proofs about the configuration of the shapefile framework. *)
From Verif Require Import Base.Prelude Base.Decimal Model.Osm Model.Geom Model.Shapefile Model.Handler Model.Unicode Model.Js Model.Osmjs Model.Osm2shape
  Spec.UnicodeSpec Spec.JsSpec Spec.Osm2shapeSpec Proofs.UnicodeProofs Proofs.JsOutProofs.
Local Open Scope Z_scope.

(* ---- strings ---- *)
Lemma jeqb_spec a b : jeqb a b = true <-> a = b.
Proof. unfold jeqb. destruct (list_eq_dec Z.eq_dec a b); split; congruence. Qed.
Lemma jeqb_refl a : jeqb a a = true.
Proof. now apply jeqb_spec. Qed.
Lemma jeqb_neq a b : a <> b -> jeqb a b = false.
Proof. unfold jeqb. destruct (list_eq_dec Z.eq_dec a b); congruence. Qed.
Lemma ceq_spec a b : ceq a b = true <-> a = b.
Proof. unfold ceq. destruct (list_eq_dec Z.eq_dec a b); split; congruence. Qed.
Lemma ceq_refl a : ceq a a = true.
Proof. now apply ceq_spec. Qed.
Lemma jeqb_utf16 a b : text a -> text b -> jeqb (utf16 a) (utf16 b) = ceq a b.
Proof.
  intros A B. unfold jeqb, ceq. destruct (list_eq_dec Z.eq_dec (utf16 a) (utf16 b)) as [E|N], (list_eq_dec Z.eq_dec a b) as [E'|N']; auto.
  - exfalso. apply N'. now apply (proj2 (encodings_injective a b A B)).
  - congruence.
Qed.

(* ---- objects as maps ---- *)
Lemma own_set {V} k (v : V) m x : own x (set_own k v m) = if jeqb k x then Some v else own x m.
Proof.
  induction m as [|[k' v'] m IH]; cbn [set_own own].
  - reflexivity.
  - destruct (jeqb k' k) eqn:E.
    + apply jeqb_spec in E. subst. cbn [own]. destruct (jeqb k x); reflexivity.
    + cbn [own]. destruct (jeqb k' x) eqn:E2.
      * apply jeqb_spec in E2. subst. destruct (jeqb k x) eqn:E3; [|reflexivity]. apply jeqb_spec in E3. subst. rewrite jeqb_refl in E. discriminate.
      * exact IH.
Qed.
Lemma set_own_in {V} k (v : V) m x : In x (map fst (set_own k v m)) <-> x = k \/ In x (map fst m).
Proof.
  induction m as [|[k' v'] m IH]; cbn [set_own map In fst]; [intuition congruence|]. destruct (jeqb k' k) eqn:E.
  - apply jeqb_spec in E. subst. cbn [map In fst]. intuition congruence.
  - cbn [map In fst]. rewrite IH. intuition congruence.
Qed.
Lemma set_own_nodup {V} k (v : V) m : NoDup (map fst m) -> NoDup (map fst (set_own k v m)).
Proof.
  induction m as [|[k' v'] m IH]; cbn [set_own map fst]; intros N.
  - constructor; [intros []|constructor].
  - inversion N as [|? ? N1 N2]; subst. destruct (jeqb k' k) eqn:E.
    + apply jeqb_spec in E. subst. cbn [map fst]. exact N.
    + cbn [map fst]. constructor; [|now apply IH]. rewrite set_own_in. intros [->|I]; [rewrite jeqb_refl in E; discriminate|contradiction].
Qed.
Lemma own_none {V} k (m : list (jstr * V)) : own k m = None <-> ~ In k (map fst m).
Proof.
  induction m as [|[k' v] m IH]; cbn [own map In fst]; [tauto|]. destruct (jeqb k' k) eqn:E.
  - apply jeqb_spec in E. subst. split; [discriminate|]. intros H. exfalso. apply H. now left.
  - rewrite IH. split; [|tauto]. intros H [->|I]; [rewrite jeqb_refl in E; discriminate|tauto].
Qed.

(* ---- the last of the things chosen ---- *)
Lemma final_from {A B} (f : A -> option B) l : forall x,
  fold_left (fun x a => match f a with Some b => Some b | None => x end) l x = match final f l with Some b => Some b | None => x end.
Proof.
  unfold final. induction l as [|a l IH]; intros x; cbn [fold_left]; [reflexivity|]. rewrite (IH (match f a with Some b => Some b | None => x end)).
  rewrite (IH (match f a with Some b => Some b | None => None end)).
  destruct (fold_left (fun x0 a0 => match f a0 with Some b => Some b | None => x0 end) l None); [reflexivity|]. destruct (f a); reflexivity.
Qed.
Lemma final_cons {A B} (f : A -> option B) a l : final f (a :: l) = match final f l with Some b => Some b | None => f a end.
Proof. unfold final at 1. cbn [fold_left]. rewrite final_from. destruct (final f l); [reflexivity|]. destruct (f a); reflexivity. Qed.
Lemma final_snoc {A B} (f : A -> option B) l a : final f (l ++ [a]) = match f a with Some b => Some b | None => final f l end.
Proof. unfold final. rewrite fold_left_app. reflexivity. Qed.
Lemma final_nil {A B} (f : A -> option B) : final f [] = None.
Proof. reflexivity. Qed.
Lemma final_in {A B} (f : A -> option B) l b : final f l = Some b -> exists a, In a l /\ f a = Some b.
Proof.
  induction l as [|a l IH]; [discriminate|]. rewrite final_cons. destruct (final f l) eqn:E.
  - intros H. inversion H; subst. destruct (IH eq_refl) as (x & I & F). exists x. split; [now right|exact F].
  - intros H. exists a. split; [now left|exact H].
Qed.
Lemma final_some_app {A B} (f : A -> option B) l1 l2 : final f l1 <> None -> final f (l1 ++ l2) <> None.
Proof.
  intros H. unfold final. rewrite fold_left_app. rewrite final_from. destruct (final f l2); [discriminate|]. exact H.
Qed.

(* ---- files ---- *)
Definition colj (c : column) : col := let '(n, t, z) := c in mkCol (utf16 n) (ctype_name t) (column_size z).
Definition fname_from (fn : jstr) (ps : list fpart) : jstr :=
  match final (fun p => match p with DFilename n => Some (utf16 n) | _ => None end) ps with Some x => x | None => fn end.
Definition kind_from (k : kind) (ps : list fpart) : kind :=
  match final (fun p => match p with DType k => Some k | _ => None end) ps with Some k => k | None => k end.
Definition filej (name : chars) (ps : list fpart) : shpf :=
  mkShpf (fname_from (utf16 name) ps) (kind_name (file_kind ps)) (map colj (columns ps)).
Lemma file_calls_ok ps : forall fn k cols, file_calls (map fpart_call ps) (mkShpf fn (kind_name k) cols) =
  Some (mkShpf (fname_from fn ps) (kind_name (kind_from k ps)) (cols ++ map colj (columns ps))).
Proof.
  induction ps as [|p ps IH]; intros fn k cols; cbn [map file_calls].
  - unfold fname_from, kind_from, columns. cbn. now rewrite app_nil_r.
  - destruct p as [k'|n t z|n]; cbn [fpart_call file_call].
    + replace (set_type (kind_name k') (mkShpf fn (kind_name k) cols)) with (Some (mkShpf fn (kind_name k') cols)) by (destruct k'; reflexivity).
      rewrite IH. unfold fname_from, kind_from. rewrite !final_cons. destruct (final _ ps), (final _ ps); reflexivity.
    + replace (add_column (utf16 n) (ctype_name t) z (mkShpf fn (kind_name k) cols)) with
        (Some (mkShpf fn (kind_name k) (cols ++ [colj (n, t, z)]))) by (destruct t, z; reflexivity).
      rewrite IH. unfold fname_from, kind_from. rewrite !final_cons. unfold columns. cbn [flat_map]. rewrite map_app, app_assoc. cbn [map].
      destruct (final _ ps), (final _ ps); reflexivity.
    + cbn [sh_gtype sh_columns]. rewrite IH. unfold fname_from, kind_from. rewrite !final_cons.
      destruct (final _ ps), (final _ ps); reflexivity.
Qed.
Lemma file_decl name ps : file_calls (map fpart_call ps) (mkShpf (utf16 name) point []) = Some (filej name ps).
Proof. change point with (kind_name Points). rewrite file_calls_ok. reflexivity. Qed.

Lemma declared_snoc ds d n : declared (ds ++ [d]) n =
  match d with File m ps => if ceq m n then Some ps else declared ds n | Rule _ _ _ _ => declared ds n end.
Proof. unfold declared. rewrite final_snoc. destruct d; [destruct (ceq name n); reflexivity|reflexivity]. Qed.
Lemma declared_app a b n : declared a n <> None -> declared (a ++ b) n <> None.
Proof. apply final_some_app. Qed.

(* ---- rules ---- *)
Definition rule_fields (k : chars) (w : want) (ps : list rpart) (ready : bool) (r : rulej) : Prop :=
  ru_key r = utf16 k /\ ru_value r = (if is_star (want_value w) then VNull else want_value w) /\
  ru_file r = option_map utf16 (output ps) /\ ru_ready r = ready /\
  NoDup (map fst (ru_attrs r)) /\
  (forall x, text x -> own (utf16 x) (ru_attrs r) = option_map utf16 (source ps x)) /\
  Forall (fun p => exists a k, p = (utf16 a, utf16 k) /\ text a /\ short_text k /\ named k) (ru_attrs r).
Lemma output_snoc ps p : output (ps ++ [p]) = match p with DOutput n => Some n | DAttr _ _ => output ps end.
Proof. unfold output. rewrite final_snoc. destruct p; reflexivity. Qed.
Lemma source_snoc ps p x : source (ps ++ [p]) x =
  match p with DAttr a k => if ceq a x then Some (match k with Some k => k | None => a end) else source ps x | DOutput _ => source ps x end.
Proof. unfold source. rewrite final_snoc. destruct p as [n|a k]; [reflexivity|]. destruct (ceq a x); reflexivity. Qed.
Lemma output_in ps n : output ps = Some n -> In (DOutput n) ps.
Proof. unfold output. intros H. apply final_in in H. destruct H as ([m|a k] & I & E); inversion E; subst; exact I. Qed.

Section Config.
  Variable inherited : jstr -> bool.
  (** the state after a part of the configuration *)
  Definition files_inv (ds : list decl) (w : world) : Prop :=
    (forall n, text n -> own (utf16 n) (w_files w) = option_map (filej n) (declared ds n)).
  Definition is_rule (d : decl) : bool := match d with Rule _ _ _ _ => true | _ => false end.
  Definition rule_rel (ready : bool) (d : decl) (p : rtype * rulej) : Prop :=
    match d with Rule t k w ps => fst p = t /\ rule_fields k w ps ready (snd p) | File _ _ => False end.
  Definition inv (ds : list decl) (w : world) : Prop :=
    files_inv ds w /\ Forall2 (rule_rel false) (filter is_rule ds) (w_rules w) /\ w_open w = [] /\ w_rows w = [] /\
    Forall (fun p => exists n ps, text n /\ p = (utf16 n, filej n ps) /\ In (File n ps) ds) (w_files w).
  (** what a rule may say next *)
  Definition says_next (before : list decl) (a : list rpart) (p : rpart) : Prop :=
    match p with
    | DOutput n => declared before n <> None
    | DAttr x _ => exists n f, output a = Some n /\ declared before n = Some f /\ exists t z, In (DColumn x t z) f
    end.
  Definition calm (p : rpart) : Prop := match p with DOutput n => inherited (utf16 n) = false | DAttr a _ => inherited (utf16 a) = false end.
  Lemma columns_in x t z f : In (DColumn x t z) f <-> In (x, t, z) (columns f).
  Proof.
    unfold columns. rewrite in_flat_map. split.
    - intros I. exists (DColumn x t z). split; [exact I|now left].
    - intros ([k|n t' z'|n] & I & J); cbn in J; try contradiction. destruct J as [J|[]]. inversion J; subst. exact I.
  Qed.
  Lemma has_column_says x f nm : text x -> inherited (utf16 x) = false -> Forall fpart_ok f ->
    has_column inherited (utf16 x) (filej nm f) = true <-> exists t z, In (DColumn x t z) f.
  Proof.
    intros T I F. unfold has_column. rewrite I, orb_false_r. cbn [filej sh_columns]. rewrite existsb_exists. split.
    - intros (c & J & E). apply in_map_iff in J. destruct J as ([[n t] z] & <- & J). cbn [colj co_name] in E.
      apply columns_in in J. rewrite jeqb_utf16 in E; [|rewrite Forall_forall in F; exact (F _ J)|exact T].
      apply ceq_spec in E. subst. eauto.
    - intros (t & z & J). exists (colj (x, t, z)). split; [apply in_map; now apply columns_in|]. cbn [colj co_name]. apply jeqb_refl.
  Qed.
  Lemma rule_step before w a p k wt r : files_inv before w -> Forall decl_ok before -> rule_fields k wt a false r -> Forall rpart_ok a -> rpart_ok p -> calm p ->
    (says_next before a p -> exists r', rule_call inherited w (rpart_call p) r = Some r' /\ rule_fields k wt (a ++ [p]) false r') /\
    (~ says_next before a p -> rule_call inherited w (rpart_call p) r = None).
  Proof.
    intros F D (K & V & O & R & N & S & G) Oa P C.
    assert (Fok : forall n f, declared before n = Some f -> Forall fpart_ok f).
    { intros n f E. unfold declared in E. apply final_in in E. destruct E as (d & I & E). destruct d as [m ps|]; [|discriminate].
      destruct (ceq m n); [|discriminate]. inversion E; subst. rewrite Forall_forall in D. apply (D _ I). }
    destruct p as [n|x key]; cbn [rpart_call rule_call says_next] in *.
    - unfold has_name. rewrite (F n P). split.
      + intros H. destruct (declared before n); [|congruence]. cbn [option_map]. eexists. split; [reflexivity|].
        repeat split; cbn [ru_key ru_value ru_file ru_attrs ru_ready]; auto.
        * now rewrite output_snoc.
        * intros x T. rewrite source_snoc. now apply S.
      + intros H. destruct (declared before n); [exfalso; apply H; discriminate|]. cbn [option_map]. now rewrite C.
    - destruct P as [Tx Sk]. rewrite O.
      assert (Ot : forall n, output a = Some n -> text n).
      { intros n E. apply output_in in E. rewrite Forall_forall in Oa. exact (Oa _ E). }
      destruct (output a) as [n|] eqn:E; cbn [option_map].
      2:{ split; [intros (n & f & H & _); discriminate|reflexivity]. }
      rewrite (F n (Ot n eq_refl)). destruct (declared before n) as [f|] eqn:Df; cbn [option_map].
      2:{ split; [intros (m & f & H & H1 & _); inversion H; subst; congruence|reflexivity]. }
      pose proof (has_column_says x f n Tx C (Fok _ _ Df)) as Q. destruct (has_column inherited (utf16 x) (filej n f)) eqn:HC.
      + split.
        * intros _. eexists. split; [reflexivity|]. repeat split; cbn [ru_key ru_value ru_file ru_attrs ru_ready]; auto.
          -- now rewrite output_snoc, E.
          -- now apply set_own_nodup.
          -- intros y T. rewrite own_set, jeqb_utf16 by assumption. rewrite source_snoc. destruct (ceq x y); [destruct key; reflexivity|now apply S].
          -- assert (W : forall l, Forall (fun p => exists a k, p = (utf16 a, utf16 k) /\ text a /\ short_text k /\ named k) l ->
               Forall (fun p => exists a k, p = (utf16 a, utf16 k) /\ text a /\ short_text k /\ named k) (set_own (utf16 x) (match option_map utf16 key with Some k => k | None => utf16 x end) l)).
             { clear -Tx Sk. assert (Z0 : exists a k, (utf16 x, match option_map utf16 key with Some k => k | None => utf16 x end) = (utf16 a, utf16 k) /\ text a /\ short_text k /\ named k).
               { exists x, (match key with Some k => k | None => x end). split; [destruct key; reflexivity|]. split; assumption. }
               induction l as [|[k v] l IH]; intros H; cbn [set_own]; [constructor; auto|]. inversion H; subst. destruct (jeqb k (utf16 x)); constructor; auto. }
             now apply W.
        * intros H. exfalso. apply H. exists n, f. repeat split; auto. now apply Q.
      + split; [|reflexivity]. intros (m & g & H & H1 & H2). inversion H; subst. rewrite Df in H1. inversion H1; subst. apply Q in H2. discriminate.
  Qed.
  Lemma rule_calls_ok before w k wt ps : files_inv before w -> Forall decl_ok before -> Forall rpart_ok ps -> Forall calm ps -> forall a r,
    rule_fields k wt a false r -> Forall rpart_ok a ->
    ((forall x p y, ps = x ++ p :: y -> says_next before (a ++ x) p) -> exists r', rule_calls inherited w (map rpart_call ps) r = Some r' /\ rule_fields k wt (a ++ ps) false r') /\
    (forall r', rule_calls inherited w (map rpart_call ps) r = Some r' -> forall x p y, ps = x ++ p :: y -> says_next before (a ++ x) p).
  Proof.
    intros F D P C. induction ps as [|p ps IH]; intros a r R A; cbn [map rule_calls].
    - split; [intros _; exists r; rewrite app_nil_r; auto|]. intros r' _ x p y E. destruct x; discriminate.
    - inversion P as [|? ? P1 P2]; subst. inversion C as [|? ? C1 C2]; subst.
      destruct (rule_step before w a p k wt r F D R A P1 C1) as [S1 S2].
      assert (A' : Forall rpart_ok (a ++ [p])) by (apply Forall_app; split; auto).
      split.
      + intros H. destruct S1 as (r1 & E1 & R1); [specialize (H [] p ps eq_refl); now rewrite app_nil_r in H|]. rewrite E1.
        destruct (IH P2 C2 (a ++ [p]) r1 R1 A') as [I1 _]. destruct I1 as (r' & E & R').
        * intros x q y ->. specialize (H (p :: x) q y eq_refl). now rewrite <- app_assoc.
        * exists r'. split; auto. now rewrite <- app_assoc in R'.
      + intros r' E x q y Eq. destruct (rule_call inherited w (rpart_call p) r) as [r1|] eqn:E1; [|discriminate].
        assert (N1 : ~ ~ says_next before a p) by (intros H; discriminate (S2 H)).
        assert (Dec : says_next before a p \/ ~ says_next before a p).
        { destruct p as [n|z kk]; cbn [says_next].
          - destruct (declared before n); [left; discriminate|right; congruence].
          - destruct (output a) as [n|]; [|right; intros (n & f & H & _); discriminate].
            destruct (declared before n) as [f|] eqn:Df; [|right; intros (m & f & H & H1 & _); inversion H; subst; congruence].
            assert (Q : (exists t z0, In (DColumn z t z0) f) \/ ~ (exists t z0, In (DColumn z t z0) f)).
            { clear. induction f as [|q f IH]; [right; intros (t & z0 & []) |]. destruct IH as [(t & z0 & I)|N]; [left; exists t, z0; now right|].
              destruct q as [kd|nm t z0|nm]; [right; intros (t & z1 & [H|H]); [discriminate|eauto]| |right; intros (t & z1 & [H|H]); [discriminate|eauto]].
              destruct (list_eq_dec Z.eq_dec nm z) as [->|Ne]; [left; exists t, z0; now left|]. right. intros (t' & z1 & [H|H]); [congruence|eauto]. }
            destruct Q as [Q|Q]; [left; exists n, f; auto|right]. intros (m & g & H & H1 & H2). inversion H; subst. rewrite Df in H1. inversion H1; subst. auto. }
        destruct Dec as [Dc|Dc]; [|contradiction]. destruct (S1 Dc) as (r1' & E1' & R1). inversion E1'; subst r1'.
        destruct x as [|x0 x]; cbn in Eq; inversion Eq; subst; [now rewrite app_nil_r|].
        destruct (IH P2 C2 (a ++ [x0]) r1 R1 A') as [_ I2]. specialize (I2 r' E x q y eq_refl). now rewrite <- app_assoc in I2.
  Qed.
  Lemma filter_snoc {A} (f : A -> bool) l x : filter f (l ++ [x]) = filter f l ++ if f x then [x] else [].
  Proof. rewrite filter_app. reflexivity. Qed.
  Lemma set_own_forall {V} (P : jstr * V -> Prop) k v m : P (k, v) -> Forall P m -> Forall P (set_own k v m).
  Proof. intros H. induction 1 as [|[k' v'] m Q F IH]; cbn [set_own]; [constructor; auto|]. destruct (jeqb k' k); constructor; auto. Qed.
  Definition stmt_of (d : decl) : stmt :=
    match d with File n ps => SFile (utf16 n) (map fpart_call ps) | Rule t k w ps => SRule t (utf16 k) (want_value w) (map rpart_call ps) end.
  Definition decl_says (before : list decl) (d : decl) : Prop := match d with File _ _ => True | Rule _ _ _ ps => rule_says before ps end.
  Definition calm_decl (d : decl) : Prop := match d with File _ _ => True | Rule _ _ _ ps => Forall calm ps end.
  Lemma decl_step before d w : inv before w -> Forall decl_ok before -> decl_ok d -> calm_decl d ->
    (decl_says before d -> exists w', statement inherited (stmt_of d) w = Some w' /\ inv (before ++ [d]) w') /\
    (forall w', statement inherited (stmt_of d) w = Some w' -> decl_says before d).
  Proof.
    intros (F & R & O & W & G) D K C.
    assert (G' : forall m, Forall (fun p => exists n ps, text n /\ p = (utf16 n, filej n ps) /\ In (File n ps) before) m ->
      Forall (fun p => exists n ps, text n /\ p = (utf16 n, filej n ps) /\ In (File n ps) (before ++ [d])) m).
    { intros m. apply Forall_impl. intros p (n & ps & H1 & H2 & H3). exists n, ps. repeat split; auto. apply in_or_app. now left. }
    destruct d as [n ps|t k wt ps]; cbn [stmt_of statement decl_says].
    - destruct K as [Tn Fp]. split; [|auto]. intros _. unfold shapefile_decl. rewrite file_decl. eexists. split; [reflexivity|].
      repeat split; cbn [w_files w_rules w_open w_rows]; auto.
      + intros m T. cbn [w_files]. rewrite own_set, jeqb_utf16 by assumption. rewrite declared_snoc. destruct (ceq n m) eqn:E; [|now apply F].
        apply ceq_spec in E. now subst.
      + rewrite filter_snoc. cbn [is_rule]. now rewrite app_nil_r.
      + apply set_own_forall; [|now apply G']. exists n, ps. repeat split; auto. apply in_or_app. right. now left.
    - destruct K as (Sk & Wk & Pk). unfold rule_decl.
      assert (R0 : rule_fields k wt [] false (mkRule (utf16 k) (if is_star (want_value wt) then VNull else want_value wt) None [] false)).
      { repeat split; cbn; auto. constructor. }
      destruct (rule_calls_ok before w k wt ps F D Pk C [] _ R0 (Forall_nil _)) as [H1 H2]. split.
      + intros H. destruct H1 as (r' & E & R'); [intros x p y Eq; exact (H x p y Eq)|]. rewrite E. eexists. split; [reflexivity|].
        repeat split; cbn [w_files w_rules w_open w_rows]; auto.
        * intros m T. rewrite declared_snoc. now apply F.
        * rewrite filter_snoc. cbn [is_rule]. apply Forall2_app; [exact R|]. constructor; [|constructor]. split; [reflexivity|]. exact R'.
      + intros w' E. destruct (rule_calls inherited w (map rpart_call ps) _) as [r'|] eqn:E1; [|discriminate].
        intros x p y Eq. exact (H2 r' eq_refl x p y Eq).
  Qed.
  Lemma script_map ds : script ds = map stmt_of ds.
  Proof. unfold script. apply map_ext. intros [n ps|t k w ps]; reflexivity. Qed.
  Lemma configure_from ds : forall before w, inv before w -> Forall decl_ok (before ++ ds) -> Forall calm_decl ds ->
    ((forall x d y, ds = x ++ d :: y -> decl_says (before ++ x) d) -> exists w', configure inherited (map stmt_of ds) w = Some w' /\ inv (before ++ ds) w') /\
    (forall w', configure inherited (map stmt_of ds) w = Some w' -> forall x d y, ds = x ++ d :: y -> decl_says (before ++ x) d).
  Proof.
    induction ds as [|d ds IH]; intros before w I D C; cbn [map configure].
    - split; [intros _; exists w; rewrite app_nil_r; auto|]. intros w' _ x d y E. destruct x; discriminate.
    - assert (D0 : Forall decl_ok before) by (apply Forall_app in D; tauto). assert (D1 : decl_ok d) by (apply Forall_app in D; destruct D as [_ D]; now inversion D).
      inversion C as [|? ? C1 C2]; subst. destruct (decl_step before d w I D0 D1 C1) as [S1 S2].
      assert (D2 : Forall decl_ok ((before ++ [d]) ++ ds)) by (now rewrite <- app_assoc). split.
      + intros H. destruct S1 as (w1 & E1 & I1); [specialize (H [] d ds eq_refl); now rewrite app_nil_r in H|]. rewrite E1.
        destruct (IH (before ++ [d]) w1 I1 D2 C2) as [J _]. destruct J as (w' & E & I').
        * intros x q y ->. specialize (H (d :: x) q y eq_refl). now rewrite <- app_assoc.
        * exists w'. split; auto. now rewrite <- app_assoc in I'.
      + intros w' E x q y Eq. destruct (statement inherited (stmt_of d) w) as [w1|] eqn:E1; [|discriminate]. pose proof (S2 w1 eq_refl) as Sd.
        destruct (S1 Sd) as (w1' & E1' & I1). inversion E1'; subst w1'.
        destruct x as [|x0 x]; cbn in Eq; inversion Eq; subst; [now rewrite app_nil_r|].
        destruct (IH (before ++ [x0]) w1 I1 D2 C2) as [_ J]. specialize (J w' E x q y eq_refl). now rewrite <- app_assoc in J.
  Qed.
  Lemma inv_new : inv [] world_new.
  Proof. repeat split; cbn; auto; constructor. Qed.
  Lemma proper_calm ds : proper inherited ds -> Forall calm_decl ds.
  Proof.
    intros P. apply Forall_forall. intros d I. destruct d as [n ps|t k w ps]; cbn; [exact Logic.I|]. apply Forall_forall. intros p J.
    specialize (P t k w ps p I J). destruct p; exact P.
  Qed.
  Theorem configure_ok ds : Forall decl_ok ds -> proper inherited ds -> config_says ds ->
    exists w, configure inherited (script ds) world_new = Some w /\ inv ds w.
  Proof.
    intros D P S. rewrite script_map. destruct (configure_from ds [] world_new inv_new D (proper_calm ds P)) as [H _]. apply H.
    intros x d y E. destruct d as [n ps|t k w ps]; cbn; [exact Logic.I|]. exact (S x t k w ps y E).
  Qed.
  Theorem configure_iff ds : Forall decl_ok ds -> proper inherited ds ->
    (exists w, configure inherited (script ds) world_new = Some w) <-> config_says ds.
  Proof.
    intros D P. split.
    - intros (w & E) a t k wt ps b Eq. rewrite script_map in E. destruct (configure_from ds [] world_new inv_new D (proper_calm ds P)) as [_ H].
      exact (H w E a (Rule t k wt ps) b Eq).
    - intros S. destruct (configure_ok ds D P S) as (w & E & _). eauto.
  Qed.
End Config.
