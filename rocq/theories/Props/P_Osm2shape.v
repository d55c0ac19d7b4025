(** C81: the framework for exports to shapefiles. *)
From Verif Require Import Base.Prelude Model.Osm Model.Geom Model.Shapefile Model.Handler Model.Unicode Model.Js Model.Osmjs Model.Osm2shape
  Spec.UnicodeSpec Spec.JsSpec Spec.Osm2shapeSpec Proofs.UnicodeProofs Proofs.Osm2shapeProofs Proofs.Osm2shape2Proofs.
Local Open Scope Z_scope.

(** A configuration is accepted exactly if every rule only mentions files declared before it and columns of
    the file that is its output at that point. *)
Theorem C81_config : forall inherited ds, Forall decl_ok ds -> proper inherited ds ->
  (exists w, configure inherited (script ds) world_new = Some w) <-> config_says ds.
Proof. exact configure_iff. Qed.
Print Assumptions C81_config.
(** The function made for a rule accepts exactly the objects the rule is for. *)
Theorem C81_match : forall k w kvs, short_text k -> named k -> want_ok w -> Forall (fun kv => short_text (fst kv) /\ short_text (snd kv)) kvs ->
  exists b, matches (utf16 k) (if is_star (want_value w) then VNull else want_value w) (tags_of kvs) = Ok b /\ (b = true <-> selected k w kvs).
Proof. exact matches_ok. Qed.
Print Assumptions C81_match.
(** A run over any objects: every object gives one row for every rule of its type that selects it, in the
    file of that rule, if the geometry fits, with the columns filled from the id and the tags; nothing
    else is written; and at the end all files are closed and have the geometries of their rows in order. *)
Theorem C81_rows : forall inherited to_int32 shape ds, Forall decl_ok ds -> (forall n ps, In (File n ps) ds -> file_ok ps) ->
  config_says ds -> complete ds -> forall cs, proper inherited ds -> Forall (callback_ok to_int32 shape ds) cs ->
  exists w, osm2shape inherited to_int32 shape (script ds) (CInit :: cs ++ [CFinal]) = Some (Some w) /\ rows_all to_int32 shape ds cs (w_rows w) /\
    forall n ps, text n -> declared ds n = Some ps -> exists s, own (utf16 n) (w_open w) = Some s /\
      ss_type s = kind_shape (file_kind ps) /\ ss_fields s = map column_field (columns ps) /\ ss_cur s = None /\
      flat_map sf_shapes (ss_done s) = shapes_of shape n (w_rows w).
Proof. exact osm2shape_rows. Qed.
Print Assumptions C81_rows.

(* ---- a configuration like config.js ---- *)
Definition ch (s : string) : chars := ascii_text s.
Definition roads : decl := File (ch "roads") [DType Lines; DColumn (ch "id") CInteger (Some 10); DColumn (ch "type") CString (Some 4); DColumn (ch "oneway") CBool None].
Definition pois : decl := File (ch "pois") [DColumn (ch "name") CString (Some 32)].
Definition streets : decl := Rule RWay (ch "highway") (WText (ch "primary|track")) [DOutput (ch "roads"); DAttr (ch "type") (Some (ch "highway")); DAttr (ch "oneway") None].
Definition shops : decl := Rule RNode (ch "shop") (WText (ch "*")) [DOutput (ch "pois"); DAttr (ch "name") None].
Definition conf : list decl := [roads; pois; streets; shops].
Definition tagged (id : Z) (kvs : list (string * string)) : attrs :=
  mkAttrs id 1 7 1000000000 0 5 "joe" true (map (fun kv => mkTag (fst kv) (snd kv)) kvs).
Definition track : way := mkWay (tagged 7 [("highway", "track"); ("oneway", "yes")]%string) [].
Definition path : way := mkWay (tagged 8 [("highway", "path")]%string) [].
Definition shop : node := mkNode (tagged 9 [("name", "Joe"); ("shop", "toys")]%string) (mkPos 10 20).
(** nodes are points, ways are lines *)
Definition shp_of (o : this) : outcome shp :=
  match o with OnObject (ONode n) => Ok (mkShp SHPT_POINT 1 1 (o_id (n_attrs n))) | OnObject (OWay w) => Ok (mkShp SHPT_ARC 1 2 (o_id (w_attrs w))) | _ => Throw EIllegalGeometry end.
Definition no_int (u : jstr) : Z := 0.
Lemma ch_short s : (List.length (ch s) < 512)%nat -> forallb (fun c => (0 <? c) && (c <? 55296)) (ch s) = true -> short_text (ch s).
Proof.
  intros L F. rewrite forallb_forall in F. split; [split|exact L].
  - apply Forall_forall. intros c I. specialize (F c I). left. lia.
  - intros I. specialize (F 0 I). discriminate.
Qed.
Lemma ch_whole s n : forallb (fun c => (0 <? c) && (c <? 55296)) (ch s) = true -> ~ splits n (ch s).
Proof.
  intros F (a & c & b & E & L & _). rewrite forallb_forall in F. specialize (F c). rewrite E in F. specialize (F (in_or_app a (c :: b) c (or_intror (or_introl eq_refl)))). lia.
Qed.
Ltac named_ := match goal with |- named (ch ?s) => let n := fresh in let H := fresh in let c := fresh in let r := fresh in let E := fresh in let B := fresh in
  intros n H; destruct (print_digit n ltac:(lia)) as (c & r & E & B); rewrite E; intros X; injection X; intros; subst; vm_compute in B; destruct B; congruence end.
Ltac short := apply ch_short; [vm_compute; lia|vm_compute; reflexivity].
Ltac plain_ := match goal with |- context [ch ?s] => let H := fresh in assert (H : short_text (ch s)) by short; apply H end.
Lemma conf_ok : Forall decl_ok conf.
Proof.
  unfold conf. repeat first [apply Forall_cons | apply Forall_nil]; cbn [decl_ok want_ok roads pois streets shops];
    repeat first [exact I | short | named_ | plain_ | match goal with |- _ /\ _ => split end | apply Forall_cons | apply Forall_nil]; cbn [rpart_ok fpart_ok];
    repeat first [exact I | short | named_ | plain_ | split].
Qed.
Lemma conf_proper : proper js_inherited conf.
Proof.
  intros t k w ps p I J. cbn [conf In] in I. destruct I as [I|[I|[I|[I|[]]]]]; try discriminate; inversion I; subst; cbn [In] in J;
    repeat (destruct J as [<-|J]; [vm_compute; reflexivity|]); destruct J.
Qed.
Lemma conf_says : config_says conf.
Proof. apply (C81_config js_inherited conf conf_ok conf_proper). eexists. vm_compute. reflexivity. Qed.
Lemma conf_complete : complete conf.
Proof.
  intros t k w ps I. cbn [conf In] in I. destruct I as [I|[I|[I|[I|[]]]]]; try discriminate; inversion I; subst; eexists; (split; [vm_compute; reflexivity|discriminate]).
Qed.
Lemma conf_files : forall n ps, In (File n ps) conf -> file_ok ps.
Proof.
  intros n ps I. cbn [conf In] in I. destruct I as [I|[I|[I|[I|[]]]]]; try discriminate; inversion I; subst; (split; [|vm_compute; discriminate]);
    cbn [columns flat_map app]; repeat first [apply Forall_cons | apply Forall_nil]; (split; [plain_|split; vm_compute; split; discriminate]).
Qed.
Example C81_run : exists w, osm2shape js_inherited no_int shp_of (script conf)
    [CInit; CObj (ONode shop); CObj (OWay track); CObj (OWay path); CFinal] = Some (Some w) /\
  w_rows w = [mkRow (utf16 (ch "pois")) (OnObject (ONode shop)) [DString 0 "Joe"];
              mkRow (utf16 (ch "roads")) (OnObject (OWay track)) [DInt 0 7; DString 1 "trac"; DBool 2 true]].
Proof. eexists. split; [vm_compute; reflexivity|]. reflexivity. Qed.
(** the objects meet the hypotheses of C81_rows *)
Example C81_objects : Forall (callback_ok no_int shp_of conf) [CObj (ONode shop); CObj (OWay track); CObj (OWay path)].
Proof.
  assert (P : forall kvs, Forall (fun kv : string * string => short_text (ch (fst kv)) /\ short_text (ch (snd kv))) kvs ->
              Forall (fun kv => short_text (fst kv) /\ short_text (snd kv)) (map (fun kv => (ch (fst kv), ch (snd kv))) kvs)) by (intros kvs F; now apply Forall_map).
  repeat first [apply Forall_cons | apply Forall_nil]; intros t o a E; inversion E; subst; clear E; (split; [|right; eexists; split; [reflexivity|cbn; lia]]).
  - exists [(ch "name", ch "Joe"); (ch "shop", ch "toys")]. split; [vm_compute; reflexivity|]. split; [apply (P [("name", "Joe"); ("shop", "toys")]%string); repeat apply Forall_cons; try apply Forall_nil; split; short|].
    intros k w ps n f c I S O D Fi C. cbn [conf In] in I. destruct I as [I|[I|[I|[I|[]]]]]; try discriminate. inversion I; subst.
    vm_compute in O. inversion O; subst. vm_compute in D. inversion D; subst. cbn in C. destruct C as [<-|[]].
    split; [vm_compute; split; discriminate|]. exists (ch "Joe"). split; [vm_compute; reflexivity|]. split; [plain_|now apply ch_whole].
  - exists [(ch "highway", ch "track"); (ch "oneway", ch "yes")]. split; [vm_compute; reflexivity|].
    split; [apply (P [("highway", "track"); ("oneway", "yes")]%string); repeat apply Forall_cons; try apply Forall_nil; split; short|].
    intros k w ps n f c I S O D Fi C. cbn [conf In] in I. destruct I as [I|[I|[I|[I|[]]]]]; try discriminate. inversion I; subst.
    vm_compute in O. inversion O; subst. vm_compute in D. inversion D; subst. cbn in C. destruct C as [<-|[<-|[<-|[]]]].
    + exact Logic.I.
    + split; [vm_compute; split; discriminate|]. exists (ch "track"). split; [vm_compute; reflexivity|]. split; [plain_|now apply ch_whole].
    + exists (ch "yes"), (Some true). split; [vm_compute; reflexivity|]. split; [plain_|]. left. exists 121, [101; 115]. split; [reflexivity|]. split; [cbn; auto|reflexivity].
  - exists [(ch "highway", ch "path")]. split; [vm_compute; reflexivity|].
    split; [apply (P [("highway", "path")]%string); repeat apply Forall_cons; try apply Forall_nil; split; short|].
    intros k w ps n f c I S O D Fi C. exfalso. cbn [conf In] in I. destruct I as [I|[I|[I|[I|[]]]]]; try discriminate. inversion I; subst.
    assert (F : Forall (fun kv => short_text (fst kv) /\ short_text (snd kv)) [(ch "highway", ch "path")])
      by (apply (P [("highway", "path")]%string); repeat apply Forall_cons; try apply Forall_nil; split; short).
    destruct (C81_match (ch "highway") (WText (ch "primary|track")) _ ltac:(short) ltac:(named_) ltac:(cbn [want_ok]; plain_) F) as (b & E & Sb). apply Sb in S. subst b.
    vm_compute in E. discriminate.
Qed.

(* ---- findings ---- *)
(** Names of properties every object has are accepted as the name of a file that was never declared. *)
Theorem C81_output_refuted : exists ds, Forall decl_ok ds /\ ~ config_says ds /\ exists w, configure js_inherited (script ds) world_new = Some w.
Proof.
  exists [Rule RNode (ch "shop") WNull [DOutput (ch "toString")]]. split; [|split].
  - apply Forall_cons; [|apply Forall_nil]. cbn [decl_ok want_ok]. split; [split; [short|named_]|]. split; [exact I|]. apply Forall_cons; [|apply Forall_nil]. cbn [rpart_ok]. plain_.
  - intros C. exact (C [] RNode (ch "shop") WNull [DOutput (ch "toString")] [] eq_refl [] (DOutput (ch "toString")) [] eq_refl eq_refl).
  - eexists. vm_compute. reflexivity.
Qed.
Print Assumptions C81_output_refuted.
(** A rule without output is to end the program; it goes on, and the rules after it and all rules for ways are lost. *)
Theorem C81_no_output_refuted : exists t k w ds cs wd, osm2shape js_inherited no_int shp_of (script ds) (CInit :: cs ++ [CFinal]) = Some (Some wd) /\
  map or_file (w_rows wd) = [utf16 (ch "pois"); utf16 (ch "roads")] /\
  (exists wd', osm2shape js_inherited no_int shp_of (script (ds ++ [Rule t k w []])) (CInit :: cs ++ [CFinal]) = Some (Some wd') /\ map or_file (w_rows wd') = [utf16 (ch "pois")]) /\
  exists wd', osm2shape js_inherited no_int shp_of (script (Rule t k w [] :: ds)) (CInit :: cs ++ [CFinal]) = Some (Some wd') /\ w_rows wd' = [].
Proof.
  exists RNode, (ch "amenity"), WNull, conf, [CObj (ONode shop); CObj (OWay track)]. eexists. split; [vm_compute; reflexivity|]. split; [vm_compute; reflexivity|].
  split; eexists; (split; [vm_compute; reflexivity|vm_compute; reflexivity]).
Qed.
Print Assumptions C81_no_output_refuted.
(** In a column of whole numbers, large ids become other numbers. *)
Theorem C81_id_refuted : exists a n w r, o_id a = 2147483648 /\
  osm2shape js_inherited no_int shp_of (script [roads; streets]) [CInit; CObj (OWay (mkWay a n)); CFinal] = Some (Some w) /\ w_rows w = [r] /\
  nth_error (or_values r) 0 = Some (DInt 0 (-2147483648)).
Proof.
  exists (tagged 2147483648 [("highway", "track")]%string), []. eexists. eexists. split; [reflexivity|]. split; [vm_compute; reflexivity|]. split; reflexivity.
Qed.
Print Assumptions C81_id_refuted.
(** A rule for any value does not select an object that has the tag with an empty value. *)
Theorem C81_star_refuted : exists k kvs, first_value k kvs = Some [] /\
  matches (utf16 k) (if is_star (want_value (WText (ch "*"))) then VNull else want_value (WText (ch "*"))) (tags_of kvs) = Ok false.
Proof. exists (ch "name"), [(ch "name", [])]. split; vm_compute; reflexivity. Qed.
Print Assumptions C81_star_refuted.
(** Tags whose key is a number are never seen by the rules. *)
Theorem C81_index_refuted : exists k v kvs, first_value k kvs = Some v /\ v <> [] /\ matches (utf16 k) VNull (tags_of kvs) = Ok false.
Proof. exists (ch "112"), (ch "yes"), [(ch "112", ch "yes")]. split; [vm_compute; reflexivity|]. split; [discriminate|]. vm_compute; reflexivity. Qed.
Print Assumptions C81_index_refuted.
