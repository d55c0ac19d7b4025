(** C76, C77: applying a change file, counting objects, finding the bounding box. *)
From Coq Require Import Reals Lra.
From Verif Require Import Base.Prelude Model.Osm Model.OsmFile Model.Handler Model.Pbf Model.Xml Model.Convert Model.Programs
  Spec.OsmSpec Spec.HandlerSpec Spec.ConvertSpec Spec.TimeSpec Spec.FloatSpec Spec.DecimalSpec Spec.DebugSpec Spec.ProgramsSpec Proofs.DecfloatProofs Proofs.Programs3Proofs.
From Verif Require Spec.XmlSpec Spec.XmlText Spec.XmlExamples.
Local Open Scope Z_scope.
Local Open Scope string_scope.

(* ---- C76 ---- *)
(** The dump shows the objects of the file and, among those of each type it has, the objects of the
    change file, ordered by id and version. *)
Theorem C76_applied : forall change file, file_read file -> read_fully change -> read_fully file -> fst file <> [] ->
  types_ok (objects_of change) -> NoDup (map fst (join (fst file))) ->
  (forall run, In run (join (fst file)) -> run_fits (objects_of change) run) ->
  Forall showable (objects_of change) -> Forall showable (objects_of file) ->
  exists text rs outs, store_and_debug change file = (text, None) /\ read_dump text = Some rs /\
    Forall2 (applied (objects_of change)) (join (fst file)) outs /\
    Forall2 (shows_call meta_new false) rs (CInit :: flat_map bracket outs ++ [CFinal]).
Proof. exact store_and_debug_shows. Qed.
Print Assumptions C76_applied.
(** Of a change file that cannot be read to its end nothing is applied, and nothing is shown. *)
Theorem C76_failed : forall change file, file_read change -> ~ read_fully change -> exists h, store_and_debug change file = ("", Some h).
Proof. exact store_and_debug_fails. Qed.
Print Assumptions C76_failed.

(* ---- C77 ---- *)
(** The numbers printed are those of the nodes, ways and relations of the file. *)
Theorem C77_counts : forall elapsed r, file_read r -> read_fully r ->
  exists a b c e, osmium_time elapsed r =
    ("nodes: " ++ a ++ "  ways: " ++ b ++ "  relations: " ++ c ++ String "010" ("wallclock time: " ++ e ++ "s" ++ String "010" ""), None) /\
    int_text a (count_of NODE (objects_of r) mod 2 ^ 64) /\ int_text b (count_of WAY (objects_of r) mod 2 ^ 64) /\
    int_text c (count_of RELATION (objects_of r) mod 2 ^ 64) /\ int_text e elapsed.
Proof. exact time_counts. Qed.
Print Assumptions C77_counts.
(** Of a file that cannot be read to its end none are printed. *)
Theorem C77_failed : forall elapsed r, file_read r -> ~ read_fully r -> exists h, osmium_time elapsed r = ("", Some h).
Proof. exact time_fails. Qed.
Print Assumptions C77_failed.
(** The box printed is within a thousandth of a degree of the smallest one around all the nodes. *)
Theorem C77_bbox : forall r ns rest, file_read r -> read_fully r -> join (fst r) = (NODE, ns) :: rest -> ns <> [] ->
  (forall p, In p (node_positions ns) -> located p /\ in_i32 (px p) /\ in_i32 (py p)) ->
  exists b x1 y1 x2 y2, is_bbox (node_positions ns) b /\
    osmium_find_bbox r = ("minlon=" ++ x1 ++ " minlat=" ++ y1 ++ " maxlon=" ++ x2 ++ " maxlat=" ++ y2 ++ String "010" "", None) /\
    near_text x1 (px (bottom_left b)) /\ near_text y1 (py (bottom_left b)) /\ near_text x2 (px (top_right b)) /\ near_text y2 (py (top_right b)).
Proof. exact bbox_shows. Qed.
Print Assumptions C77_bbox.

(* ---- examples and findings ---- *)
Definition xattrs (id ver : Z) (vis : bool) : attrs := mkAttrs id ver 7 1000000000 0 5 "joe" vis [].
Definition xn (id ver : Z) (vis : bool) (x y : Z) : object := ONode (mkNode (xattrs id ver vis) (mkPos x y)).
Definition xw (id ver : Z) : object := OWay (mkWay (xattrs id ver true) [mkWN 3 undef_pos]).
Definition ex_read (ft : ftype) (os : list object) : reading := xml_reading (XmlExamples.read_text 17 (XmlExamples.xml_file ft "x" bounds_new os)).
Lemma ex_is_read ft os : file_read (ex_read ft os).
Proof. unfold ex_read, XmlExamples.read_text. apply fr_xml. Qed.
Definition ex_base : list object := [xn 1 1 true 10 20; xn 3 1 true 30 40; xn 4 2 true 50 60].
Definition ex_change : list object := [xn 2 1 true 5 5; xn 3 2 true 31 41; xn 4 3 false 50 60; xw 9 1].
Lemma ex_text : showable_text "joe".
Proof. split; intros X; cbn in X; repeat destruct X as [X|X]; (discriminate X || exact X). Qed.
Lemma ex_showable id ver vis x y : in_i32 x -> in_i32 y -> showable (xn id ver vis x y).
Proof.
  intros A B. split; [|now split]. split; [exact ex_text|split; cbn; [discriminate|unfold last_time; discriminate]|split; cbn; [discriminate|unfold last_time; discriminate]|constructor].
Qed.
Lemma ex_showable_way id ver : showable (xw id ver).
Proof.
  split; [|exact I]. split; [exact ex_text|split; cbn; [discriminate|unfold last_time; discriminate]|split; cbn; [discriminate|unfold last_time; discriminate]|constructor].
Qed.
Example C76_example : objects_of (ex_read FtOSM ex_base) = ex_base /\ objects_of (ex_read FtChange ex_change) = ex_change /\
  (forall run, In run (join (fst (ex_read FtOSM ex_base))) -> run_fits ex_change run) /\ types_ok ex_change /\
  Forall showable ex_base /\ Forall showable ex_change /\
  exists text rs, store_and_debug (ex_read FtChange ex_change) (ex_read FtOSM ex_base) = (text, None) /\ read_dump text = Some rs /\
    map (fun r => match r with RNode a x y => [ra_id a; ra_version a; x; y] | _ => [] end) rs =
    [[]; []; ["1"; "1"; "0.0000010"; "0.0000020"]; ["2"; "1"; "0.0000005"; "0.0000005"]; ["3"; "1"; "0.0000030"; "0.0000040"];
     ["3"; "2"; "0.0000031"; "0.0000041"]; ["4"; "2"; "0.0000050"; "0.0000060"]; ["4"; "3"; "0.0000050"; "0.0000060"]; []; []].
Proof.
  split; [vm_compute; reflexivity|]. split; [vm_compute; reflexivity|].
  split.
  { replace (join (fst (ex_read FtOSM ex_base))) with [(NODE, ex_base)] by (vm_compute; reflexivity). intros run [<-|[]].
    split; [|unfold key_sorted, ex_base; cbn [snd]; repeat first [apply SSorted_nil|apply SSorted_cons|apply Forall_nil|apply Forall_cons]; unfold key_lt, obj_lt_true; vm_compute; discriminate].
    split; cbn; [|intros X; repeat destruct X as [X|X]; (discriminate X || exact X)].
    intros a b A B. repeat destruct A as [<-|A]; try contradiction; repeat destruct B as [<-|B]; try contradiction; lia. }
  split.
  { repeat split; cbn; try (intros X; repeat destruct X as [X|X]; (discriminate X || exact X));
    intros a b A B; repeat destruct A as [<-|A]; try contradiction; repeat destruct B as [<-|B]; try contradiction; lia. }
  split; [repeat constructor; apply ex_showable; unfold in_i32, int32_min, int32_max; lia|].
  split; [repeat constructor; first [apply ex_showable_way|apply ex_showable; unfold in_i32, int32_min, int32_max; lia]|].
  eexists. eexists. split; [vm_compute; reflexivity|]. split; [vm_compute; reflexivity|]. vm_compute. reflexivity.
Qed.
(** Finding: objects of a type the file has none of are not shown. *)
Theorem C76_dropped_refuted : exists change file text rs o, file_read change /\ file_read file /\ read_fully change /\ read_fully file /\
  In o (objects_of change) /\ store_and_debug change file = (text, None) /\ read_dump text = Some rs /\
  forall r, In r rs -> ~ shows_object false r o.
Proof.
  exists (ex_read FtChange ex_change), (ex_read FtOSM ex_base). eexists. eexists. exists (xw 9 1).
  split; [apply ex_is_read|]. split; [apply ex_is_read|]. split; [vm_compute; reflexivity|]. split; [vm_compute; reflexivity|].
  split; [replace (objects_of (ex_read FtChange ex_change)) with ex_change by (vm_compute; reflexivity); cbn; auto|].
  split; [vm_compute; reflexivity|]. split; [vm_compute; reflexivity|].
  intros r I. repeat destruct I as [<-|I]; try contradiction; intros S; inversion S.
Qed.
Print Assumptions C76_dropped_refuted.
(** Finding: the old version of an object that is changed stays, an object that is deleted is shown
    like any other, and nothing tells that it is deleted. *)
Theorem C76_deleted_refuted : exists change file file' o text, file_read change /\ file_read file /\ file_read file' /\
  read_fully change /\ read_fully file /\ read_fully file' /\
  objects_of change = [o] /\ o_visible (obj_attrs o) = false /\ store_and_debug change file = (text, None) /\
  (forall p, In p (objects_of file') -> o_visible (obj_attrs p) = true) /\
  incl (objects_of file) (objects_of file') /\ List.length (objects_of file') = S (List.length (objects_of file)) /\
  store_and_debug ([], Ok tt) file' = (text, None).
Proof.
  exists (ex_read FtChange [xn 4 3 false 50 60]), (ex_read FtOSM ex_base), (ex_read FtOSM (ex_base ++ [xn 4 3 true 50 60])), (xn 4 3 false 50 60). eexists.
  replace (objects_of (ex_read FtOSM (ex_base ++ [xn 4 3 true 50 60]))) with (ex_base ++ [xn 4 3 true 50 60])%list by (vm_compute; reflexivity).
  replace (objects_of (ex_read FtOSM ex_base)) with ex_base by (vm_compute; reflexivity).
  split; [apply ex_is_read|]. split; [apply ex_is_read|]. split; [apply ex_is_read|]. split; [vm_compute; reflexivity|]. split; [vm_compute; reflexivity|].
  split; [vm_compute; reflexivity|]. split; [vm_compute; reflexivity|]. split; [reflexivity|]. split; [vm_compute; reflexivity|].
  split; [intros p I; cbn in I; repeat destruct I as [<-|I]; try contradiction; reflexivity|].
  split; [intros p I; apply in_or_app; now left|]. split; [reflexivity|]. vm_compute. reflexivity.
Qed.
Print Assumptions C76_deleted_refuted.

Definition ex_counted : reading := ex_read FtOSM [xn 1 1 true 1234567891 20; xn 2 1 true (-5000000) 150000000; xw 3 1].
Example C77_example : file_read ex_counted /\ read_fully ex_counted /\ List.length (objects_of ex_counted) = 3%nat /\
  osmium_time 4 ex_counted = ("nodes: 2  ways: 1  relations: 0
wallclock time: 4s
", None) /\
  osmium_find_bbox ex_counted = ("minlon=-0.5 minlat=2e-06 maxlon=123.457 maxlat=15
", None).
Proof.
  split; [apply ex_is_read|]. split; [vm_compute; reflexivity|]. split; [vm_compute; reflexivity|]. split; vm_compute; reflexivity.
Qed.
(** a file that ends within its last object *)
Definition ex_cut : reading :=
  xml_reading (XmlExamples.read_text 17 (let f := XmlExamples.xml_file FtOSM "x" bounds_new ex_base in substring 0 (Nat.sub (String.length f) 20) f)).
Example C76_failed_example : file_read ex_cut /\ ~ read_fully ex_cut /\ objects_of ex_cut <> [] /\
  store_and_debug ex_cut (ex_read FtOSM ex_base) = ("", Some (HExn ERuntime)) /\ osmium_time 4 ex_cut = ("", Some (HExn ERuntime)).
Proof.
  split; [apply fr_xml|]. split; [vm_compute; discriminate|]. split; [vm_compute; discriminate|]. split; vm_compute; reflexivity.
Qed.
(** Finding: the numbers of the box are rounded to six digits, to either side, so that it need not
    have all the nodes in it. *)
Theorem C77_outside_refuted : exists r n x1 y1 x2 y2 min, file_read r /\ read_fully r /\ objects_of r = [n] /\
  osmium_find_bbox r = ("minlon=" ++ x1 ++ " minlat=" ++ y1 ++ " maxlon=" ++ x2 ++ " maxlat=" ++ y2 ++ String "010" "", None) /\
  decimal x1 min /\ match n with ONode m => (IZR (px (n_pos m)) * precision < min)%R | _ => False end.
Proof.
  exists (ex_read FtOSM [xn 1 1 true 1234567891 20]), (xn 1 1 true 1234567891 20), "123.457", "2e-06", "123.457", "2e-06". eexists.
  split; [apply ex_is_read|]. split; [vm_compute; reflexivity|]. split; [vm_compute; reflexivity|]. split; [vm_compute; reflexivity|].
  split; [apply (decimal_frac "" "" false "123" "457" 123457 I); [constructor|split; [discriminate|reflexivity]]|].
  cbn [xn n_pos px]. change (10 ^ Z.of_nat (String.length "457")) with 1000. unfold precision. lra.
Qed.
Print Assumptions C77_outside_refuted.
(** Finding: for a file without nodes the program prints the bounds of no place and succeeds. *)
Theorem C77_no_nodes_refuted : exists r, file_read r /\ read_fully r /\ objects_of r <> [] /\ ofilter NODE (objects_of r) = [] /\
  osmium_find_bbox r = ("minlon=214.748 minlat=214.748 maxlon=214.748 maxlat=214.748
", None).
Proof.
  exists (ex_read FtOSM [xw 3 1]). split; [apply ex_is_read|]. split; [vm_compute; reflexivity|].
  replace (objects_of (ex_read FtOSM [xw 3 1])) with [xw 3 1] by (vm_compute; reflexivity).
  split; [discriminate|]. split; [reflexivity|]. vm_compute. reflexivity.
Qed.
Print Assumptions C77_no_nodes_refuted.
