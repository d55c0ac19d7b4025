(** C82: the scripts that count tags and write a table of nodes. *)
From Verif Require Import Base.Prelude Base.Decimal Model.Osm Model.Handler Model.Unicode Model.Js Model.Osm2shape Model.Scripts
  Spec.UnicodeSpec Spec.JsSpec Spec.Osm2shapeSpec Spec.ScriptsSpec Proofs.Osm2shape2Proofs Proofs.ScriptsProofs.
Local Open Scope Z_scope.

(** count.js: two tables, with a line for every key and for every tag of any node, in the order in which
    they come first, and the number of nodes that have it. *)
Theorem C82_count : forall inherited, (forall u, inherited u = true -> ~ In 9 u) -> forall cs l, node_tags cs l -> Forall (countable inherited) l ->
  exists a b, count_js inherited cs = Ok (a, b) /\
    read_table a = map (fun k => [utf8 k; print_Z (counted chars_eq (map fst (List.concat l)) k)]) (distinct chars_eq (map fst (List.concat l))) /\
    read_table b = map (fun kv => [utf8 (fst kv); utf8 (snd kv); print_Z (counted pair_eq (List.concat l) kv)]) (distinct pair_eq (List.concat l)).
Proof. exact count_ok. Qed.
Print Assumptions C82_count.
(** osm2csv.js: a line for every node with its id, name and note; the word undefined for those it does not have. *)
Theorem C82_table : forall cs l, node_rows cs l -> Forall tabular l -> exists s, osm2csv_js cs = Ok s /\
  read_table s = map (fun r => [print_Z (fst r); utf8 (or_undefined (first_value (ascii_text "name") (snd r))); utf8 (or_undefined (first_value (ascii_text "note") (snd r)))]) l.
Proof. exact osm2csv_ok. Qed.
Print Assumptions C82_table.

Definition sc_node (id : Z) (ts : list (string * string)) : callback :=
  CObj (ONode (mkNode (mkAttrs id 1 7 1000000000 0 5 "joe" true (map (fun kv => mkTag (fst kv) (snd kv)) ts)) (mkPos 10 20))).
Definition sc_way : callback := CObj (OWay (mkWay (mkAttrs 5 1 7 1000000000 0 5 "joe" true [mkTag "shop" "toys"]) [])).
Definition sc_calls : list callback :=
  [CInit; CBefore NODE; sc_node 1 [("shop", "toys"); ("name", "Joe")]%string; sc_node 2 [("shop", "books")]%string; sc_node 3 [("shop", "toys")]%string; CAfter NODE; sc_way; CFinal].
Definition sc_tags : list (list (chars * chars)) :=
  map (map (fun kv => (ascii_text (fst kv), ascii_text (snd kv)))) [[("shop", "toys"); ("name", "Joe")]; [("shop", "books")]; [("shop", "toys")]]%string.
Example C82_count_ex : exists a b, count_js js_inherited sc_calls = Ok (a, b) /\
  read_table a = [["shop"; "3"]; ["name"; "1"]]%string /\ read_table b = [["shop"; "toys"; "2"]; ["name"; "Joe"; "1"]; ["shop"; "books"; "1"]]%string.
Proof. eexists. eexists. split; [vm_compute; reflexivity|]. split; vm_compute; reflexivity. Qed.
Example C82_table_ex : exists s, osm2csv_js sc_calls = Ok s /\ read_table s = [["1"; "Joe"; "undefined"]; ["2"; "undefined"; "undefined"]; ["3"; "undefined"; "undefined"]]%string.
Proof. eexists. split; [vm_compute; reflexivity|]. vm_compute; reflexivity. Qed.
(** they meet the hypotheses *)
Example C82_nodes : node_tags sc_calls sc_tags /\ Forall (countable js_inherited) sc_tags /\ forall u, js_inherited u = true -> ~ In 9 u.
Proof.
  assert (G : forall s, match ascii_text s with c :: _ => negb ((48 <=? c) && (c <=? 57)) | [] => true end = true -> forallb (fun c => (10 <? c) && (c <? 55296)) (ascii_text s) = true -> (List.length (ascii_text s) < 512)%nat ->
     short_text (ascii_text s) /\ cell_text (ascii_text s) /\ named (ascii_text s)).
  { intros s E F L. split; [|split; [|now apply word_named]].
    - apply word_short; [|exact L]. rewrite forallb_forall in *. intros x I. specialize (F x I). lia.
    - rewrite forallb_forall in F. split; intros I; specialize (F _ I); discriminate. }
  split; [|split].
  - repeat first [apply nt_nil | apply nt_node; [reflexivity|] | apply nt_other; [discriminate|]].
  - assert (A : forall k v, short_text (ascii_text k) /\ cell_text (ascii_text k) /\ named (ascii_text k) -> short_text (ascii_text v) /\ cell_text (ascii_text v) /\ named (ascii_text v) ->
      js_inherited (utf16 (ascii_text k)) = false ->
      short_text (ascii_text k) /\ short_text (ascii_text v) /\ cell_text (ascii_text k) /\ cell_text (ascii_text v) /\ named (ascii_text k) /\ js_inherited (utf16 (ascii_text k)) = false) by tauto.
    unfold sc_tags. cbn [map fst snd]. repeat apply Forall_cons; try apply Forall_nil; (split;
      [cbn [map fst snd]; repeat first [apply NoDup_nil | apply NoDup_cons; [vm_compute; intuition discriminate|]]|
       repeat apply Forall_cons; try apply Forall_nil; cbn [fst snd]; apply A; first [apply G; [reflexivity|reflexivity|vm_compute; lia]|vm_compute; reflexivity]]).
  - intros u H I. unfold js_inherited in H. apply existsb_exists in H. destruct H as (n & J & E). unfold ceq in E. destruct (list_eq_dec Z.eq_dec (ascii_text n) u) as [<-|]; [|discriminate].
    assert (K : forallb (fun n => negb (existsb (Z.eqb 9) (ascii_text n))) prototype_names = true) by (vm_compute; reflexivity).
    rewrite forallb_forall in K. specialize (K n J). assert (X : existsb (Z.eqb 9) (ascii_text n) = true) by (apply existsb_exists; exists 9; auto). rewrite X in K. discriminate.
Qed.
Example C82_rows : node_rows sc_calls (combine [1; 2; 3] sc_tags) /\ Forall tabular (combine [1; 2; 3] sc_tags).
Proof.
  assert (G : forall s, forallb (fun c => (0 <? c) && (c <? 55296)) (ascii_text s) = true -> (List.length (ascii_text s) < 512)%nat -> short_text (ascii_text s)) by exact word_short.
  assert (N : forall id ts kvs cs l, map (fun kv => mkTag (fst kv) (snd kv)) ts = tags_of kvs -> node_rows cs l -> node_rows (sc_node id ts :: cs) ((id, kvs) :: l)).
  { intros id ts kvs cs l E R. apply (nr_node (mkNode (mkAttrs id 1 7 1000000000 0 5 "joe" true _) (mkPos 10 20))); assumption. }
  split.
  - unfold sc_tags, sc_calls. cbn [map combine]. repeat first [apply nr_nil | apply N; [reflexivity|] | apply nr_other; [discriminate|]].
  - unfold sc_tags. cbn [map combine fst snd]. repeat apply Forall_cons; try apply Forall_nil; (split; [cbn [fst]; lia|split;
      [cbn [snd]; repeat apply Forall_cons; try apply Forall_nil; cbn [fst snd]; split; apply G; first [reflexivity|vm_compute; lia]|
       intros k v [<-|[<-|[]]] E; vm_compute in E; try discriminate; injection E as <-; split; vm_compute; intuition discriminate]]).
Qed.
(** A key that is also the name of a property every object has is not counted. *)
Theorem C82_inherited_refuted : exists k cs a b, count_js js_inherited cs = Ok (a, b) /\ read_table a = [[k; "1"]]%string /\
  List.length (filter (fun c => match c with CObj (ONode n) => match get_value_by_key (o_tags (n_attrs n)) k with Some _ => true | None => false end | _ => false end) cs) = 2%nat.
Proof.
  exists "constructor"%string, [sc_node 1 [("constructor", "Joe")]%string; sc_node 2 [("constructor", "Joe")]%string]. eexists. eexists.
  split; [vm_compute; reflexivity|]. split; vm_compute; reflexivity.
Qed.
Print Assumptions C82_inherited_refuted.
(** A node without name and a node with the name undefined give the same line. *)
Theorem C82_undefined_refuted : exists id ts ts' s, get_value_by_key (map (fun kv => mkTag (fst kv) (snd kv)) ts) "name"%string = None /\
  get_value_by_key (map (fun kv => mkTag (fst kv) (snd kv)) ts') "name"%string <> None /\
  osm2csv_js [sc_node id ts] = Ok s /\ osm2csv_js [sc_node id ts'] = Ok s.
Proof.
  exists 7, [], [("name", "undefined")]%string. eexists. split; [reflexivity|]. split; [discriminate|]. split; vm_compute; reflexivity.
Qed.
Print Assumptions C82_undefined_refuted.
